(** Conformance examples: the documents and expected results of /repo/tests
    (test_html_figures.py, test_dynamic_tables.py, test_ellipsis.py, test_struct_labels.py,
    test_value_labels.py), run through the model.  These are tests of the model's
    faithfulness, not proofs of properties.  Generated from the test sources and fixtures;
    for tables built by the html_table fixture each cell's text is one span. *)
From Coq Require Import NArith ZArith List Bool String.
From Verif Require Import PyStr Xml Json Lint RowIter Helpers Extract Document.
Import ListNotations.
Local Open Scope string_scope.

Definition conf_parser : parser := get_parser false (utf8 "spex test case") (utf8 "1").

(** Entities, in order, of a run that ends normally. *)
Definition conf_ents (doc : elem) : option (list entity) :=
  match parse_doc conf_parser doc with
  | (Ok _, t) => Some (ents_of t)
  | _ => None
  end.
Definition conf_codes (doc : elem) : list code :=
  map l_code (lints_of (snd (parse_doc conf_parser doc))).

Definition doc_bits_fig37 : elem :=
 Elem (utf8 "html") [] [] [(Elem (utf8 "body") [] (utf8 "
  ") [
 (Elem (utf8 "table") [] (utf8 "
    ") [
  (Elem (utf8 "tr") [] (utf8 "
      ") [
   (Elem (utf8 "td") [(utf8 "colspan", utf8 "2")] (utf8 "
        ") [
    (Elem (utf8 "p") [] (utf8 "
          ") [
     (Elem (utf8 "span") [] (utf8 "Figure ") [], utf8 "");
     (Elem (utf8 "span") [] (utf8 "37") [], utf8 "");
     (Elem (utf8 "span") [] (utf8 ": Specification Version Descriptor") [], utf8 "
        ")], utf8 "
      ")], utf8 "
    ")], utf8 "
    ");
  (Elem (utf8 "tr") [] (utf8 "
      ") [
   (Elem (utf8 "th") [(utf8 "class", utf8 "tcell0")] (utf8 "
        ") [
    (Elem (utf8 "p") [] (utf8 "
          ") [
     (Elem (utf8 "span") [] (utf8 "Bits") [], utf8 "
        ")], utf8 "
      ")], utf8 "
      ");
   (Elem (utf8 "th") [(utf8 "class", utf8 "tcell0")] (utf8 "
        ") [
    (Elem (utf8 "p") [] (utf8 "
          ") [
     (Elem (utf8 "span") [] (utf8 "Description") [], utf8 "
        ")], utf8 "
      ")], utf8 "
    ")], utf8 "
    ");
  (Elem (utf8 "tr") [] (utf8 "
      ") [
   (Elem (utf8 "td") [] (utf8 "
        ") [
    (Elem (utf8 "p") [] (utf8 "
          ") [
     (Elem (utf8 "span") [] (utf8 "31:16") [], utf8 "
        ")], utf8 "
      ")], utf8 "
      ");
   (Elem (utf8 "td") [] (utf8 "
        ") [
    (Elem (utf8 "p") [] (utf8 "
          ") [
     (Elem (utf8 "span") [(utf8 "class", utf8 "txtfmt1")] (utf8 "Major Version (MJR):") [], utf8 "");
     (Elem (utf8 "span") [] (utf8 " An integer value indicating the major
            version
            number of this specification which is supported by the controller.") [], utf8 "
        ")], utf8 "
      ")], utf8 "
    ")], utf8 "
    ");
  (Elem (utf8 "tr") [] (utf8 "
      ") [
   (Elem (utf8 "td") [] (utf8 "
        ") [
    (Elem (utf8 "p") [] (utf8 "
          ") [
     (Elem (utf8 "span") [] (utf8 "15:08") [], utf8 "
        ")], utf8 "
      ")], utf8 "
      ");
   (Elem (utf8 "td") [] (utf8 "
        ") [
    (Elem (utf8 "p") [] (utf8 "
          ") [
     (Elem (utf8 "span") [(utf8 "class", utf8 "txtfmt1")] (utf8 "Minor Version (MNR):") [], utf8 "");
     (Elem (utf8 "span") [] (utf8 " An integer value indicating the minor
            version
            number of this specification which is supported by the controller.") [], utf8 "
        ")], utf8 "
      ")], utf8 "
    ")], utf8 "
    ");
  (Elem (utf8 "tr") [] (utf8 "
      ") [
   (Elem (utf8 "td") [] (utf8 "
        ") [
    (Elem (utf8 "p") [] (utf8 "
          ") [
     (Elem (utf8 "span") [] (utf8 "07:00") [], utf8 "
        ")], utf8 "
      ")], utf8 "
      ");
   (Elem (utf8 "td") [] (utf8 "
        ") [
    (Elem (utf8 "p") [] (utf8 "
          ") [
     (Elem (utf8 "span") [(utf8 "class", utf8 "txtfmt1")] (utf8 "Tertiary Version (TER):") [], utf8 "");
     (Elem (utf8 "span") [] (utf8 " An integer value indicating the tertiary
            version number of this specification which is supported by the controller. If this field is
            cleared
            to 0h, then this specification does not have a tertiary version number.") [], utf8 "
        ")], utf8 "
      ")], utf8 "
    ")], utf8 "
  ")], utf8 "
")], [])].

(** /repo/tests/test_html_figures.py:19 *)
Example conf_bits_fig37 : conf_ents doc_bits_fig37 = Some [
  mkEntity (mkMeta (Some (utf8 "Figure 37: Specification Version Descriptor")) (utf8 "37") None) (BStruct KBits [mkSField (utf8 "ter") (RInt (0)%Z (7)%Z) None; mkSField (utf8 "mnr") (RInt (8)%Z (15)%Z) None; mkSField (utf8 "mjr") (RInt (16)%Z (31)%Z) None])].
Proof. vm_compute. reflexivity. Qed.

Example conf_bits_fig37_lint_free : conf_codes doc_bits_fig37 = [].
Proof. vm_compute. reflexivity. Qed.

Definition doc_bits_fig47 : elem :=
 Elem (utf8 "html") [] [] [(Elem (utf8 "body") [] (utf8 "
    ") [
 (Elem (utf8 "table") [] (utf8 "
        ") [
  (Elem (utf8 "tr") [] (utf8 "
            ") [
   (Elem (utf8 "td") [(utf8 "colspan", utf8 "4")] (utf8 "
                ") [
    (Elem (utf8 "p") [] (utf8 "
                    ") [
     (Elem (utf8 "span") [] (utf8 "Figure ") [], utf8 "");
     (Elem (utf8 "span") [] (utf8 "47") [], utf8 "");
     (Elem (utf8 "span") [] (utf8 ": Offset 38h: CMBLOC – Controller Memory Buffer Location") [], utf8 "
                ")], utf8 "
            ")], utf8 "
        ")], utf8 "
        ");
  (Elem (utf8 "tr") [] (utf8 "
            ") [
   (Elem (utf8 "th") [(utf8 "class", utf8 "tcell0")] (utf8 "
                ") [
    (Elem (utf8 "p") [] (utf8 "
                    ") [
     (Elem (utf8 "span") [] (utf8 "Bits") [], utf8 "
                ")], utf8 "
            ")], utf8 "
            ");
   (Elem (utf8 "th") [(utf8 "class", utf8 "tcell0")] (utf8 "
                ") [
    (Elem (utf8 "p") [] (utf8 "
                    ") [
     (Elem (utf8 "span") [] (utf8 "Type") [], utf8 "
                ")], utf8 "
            ")], utf8 "
            ");
   (Elem (utf8 "th") [(utf8 "class", utf8 "tcell0")] (utf8 "
                ") [
    (Elem (utf8 "p") [] (utf8 "
                    ") [
     (Elem (utf8 "span") [] (utf8 "Reset") [], utf8 "
                ")], utf8 "
            ")], utf8 "
            ");
   (Elem (utf8 "th") [(utf8 "class", utf8 "tcell0")] (utf8 "
                ") [
    (Elem (utf8 "p") [] (utf8 "
                    ") [
     (Elem (utf8 "span") [] (utf8 "Description") [], utf8 "
                ")], utf8 "
            ")], utf8 "
        ")], utf8 "
        ");
  (Elem (utf8 "tr") [] (utf8 "
            ") [
   (Elem (utf8 "td") [] (utf8 "
                ") [
    (Elem (utf8 "p") [] (utf8 "
                    ") [
     (Elem (utf8 "span") [] (utf8 "31:12") [], utf8 "
                ")], utf8 "
            ")], utf8 "
            ");
   (Elem (utf8 "td") [] (utf8 "
                ") [
    (Elem (utf8 "p") [] (utf8 "
                    ") [
     (Elem (utf8 "span") [] (utf8 "RO") [], utf8 "
                ")], utf8 "
            ")], utf8 "
            ");
   (Elem (utf8 "td") [] (utf8 "
                ") [
    (Elem (utf8 "p") [] (utf8 "
                    ") [
     (Elem (utf8 "span") [] (utf8 "Impl Spec") [], utf8 "
                ")], utf8 "
            ")], utf8 "
            ");
   (Elem (utf8 "td") [] (utf8 "
                ") [
    (Elem (utf8 "p") [] (utf8 "
                    ") [
     (Elem (utf8 "span") [(utf8 "class", utf8 "txtfmt1")] (utf8 "Offset (OFST): ") [], utf8 "");
     (Elem (utf8 "span") [] (utf8 "Indicates the offset of the Controller Memory
                        Buffer in multiples of the Size Unit specified in CMBSZ.") [], utf8 "
                ")], utf8 "
            ")], utf8 "
        ")], utf8 "
        ");
  (Elem (utf8 "tr") [] (utf8 "
            ") [
   (Elem (utf8 "td") [] (utf8 "
                ") [
    (Elem (utf8 "p") [] (utf8 "
                    ") [
     (Elem (utf8 "span") [] (utf8 "11:09") [], utf8 "
                ")], utf8 "
            ")], utf8 "
            ");
   (Elem (utf8 "td") [] (utf8 "
                ") [
    (Elem (utf8 "p") [] (utf8 "
                    ") [
     (Elem (utf8 "span") [] (utf8 "RO") [], utf8 "
                ")], utf8 "
            ")], utf8 "
            ");
   (Elem (utf8 "td") [] (utf8 "
                ") [
    (Elem (utf8 "p") [] (utf8 "
                    ") [
     (Elem (utf8 "span") [] (utf8 "000b") [], utf8 "
                ")], utf8 "
            ")], utf8 "
            ");
   (Elem (utf8 "td") [] (utf8 "
                ") [
    (Elem (utf8 "p") [] (utf8 "
                    ") [
     (Elem (utf8 "span") [] (utf8 "Reserved") [], utf8 "
                ")], utf8 "
            ")], utf8 "
        ")], utf8 "
        ");
  (Elem (utf8 "tr") [] (utf8 "
            ") [
   (Elem (utf8 "td") [] (utf8 "
                ") [
    (Elem (utf8 "p") [] (utf8 "
                    ") [
     (Elem (utf8 "span") [] (utf8 "08") [], utf8 "
                ")], utf8 "
            ")], utf8 "
            ");
   (Elem (utf8 "td") [] (utf8 "
                ") [
    (Elem (utf8 "p") [] (utf8 "
                    ") [
     (Elem (utf8 "span") [] (utf8 "RO") [], utf8 "
                ")], utf8 "
            ")], utf8 "
            ");
   (Elem (utf8 "td") [] (utf8 "
                ") [
    (Elem (utf8 "p") [] (utf8 "
                    ") [
     (Elem (utf8 "span") [] (utf8 "Impl Spec") [], utf8 "
                ")], utf8 "
            ")], utf8 "
            ");
   (Elem (utf8 "td") [] (utf8 "
                ") [
    (Elem (utf8 "p") [] (utf8 "
                    ") [
     (Elem (utf8 "span") [(utf8 "class", utf8 "txtfmt1")] (utf8 "CMB Queue Dword Alignment (CQDA):") [], utf8 "");
     (Elem (utf8 "span") [] (utf8 " ") [], utf8 "");
     (Elem (utf8 "span") [] (utf8 "If this bit is set to ‘1’, CDW11.PC is set to ‘1’; and the address pointer specifies Controller Memory Buffer, then the address pointer in a Create I/O Submission Queue command (refer to ") [], utf8 "");
     (Elem (utf8 "span") [] (utf8 "Figure
                    ") [], utf8 "");
     (Elem (utf8 "span") [] (utf8 "475") [], utf8 "");
     (Elem (utf8 "span") [] (utf8 ") or a Create I/O Completion Queue command (refer to
                    ") [], utf8 "");
     (Elem (utf8 "span") [] (utf8 "Figure ") [], utf8 "");
     (Elem (utf8 "span") [] (utf8 "471") [], utf8 "");
     (Elem (utf8 "span") [] (utf8 ") shall be Dword aligned.") [], utf8 "
                ")], utf8 "
                ");
    (Elem (utf8 "p") [] (utf8 "
                    ") [
     (Elem (utf8 "span") [] (utf8 "If this bit is cleared to ‘0’, then the I/O Submission Queues and I/O Completion Queues
                        contained in the Controller Memory Buffer are aligned as defined by the PRP1 field of a Create
                        I/O Submission Queue command (refer to ") [], utf8 "");
     (Elem (utf8 "span") [] (utf8 "Figure ") [], utf8 "");
     (Elem (utf8 "span") [] (utf8 "475") [], utf8 "");
     (Elem (utf8 "span") [] (utf8 ") or a
                        Create I/O Completion Queue command (refer to ") [], utf8 "");
     (Elem (utf8 "span") [] (utf8 "Figure
                    ") [], utf8 "");
     (Elem (utf8 "span") [] (utf8 "471") [], utf8 "");
     (Elem (utf8 "span") [] (utf8 ").") [], utf8 "
                ")], utf8 "
            ")], utf8 "
        ")], utf8 "
        ");
  (Elem (utf8 "tr") [] (utf8 "
            ") [
   (Elem (utf8 "td") [] (utf8 "
                ") [
    (Elem (utf8 "p") [] (utf8 "
                    ") [
     (Elem (utf8 "span") [] (utf8 "07") [], utf8 "
                ")], utf8 "
            ")], utf8 "
            ");
   (Elem (utf8 "td") [] (utf8 "
                ") [
    (Elem (utf8 "p") [] (utf8 "
                    ") [
     (Elem (utf8 "span") [] (utf8 "RO") [], utf8 "
                ")], utf8 "
            ")], utf8 "
            ");
   (Elem (utf8 "td") [] (utf8 "
                ") [
    (Elem (utf8 "p") [] (utf8 "
                    ") [
     (Elem (utf8 "span") [] (utf8 "Impl Spec") [], utf8 "
                ")], utf8 "
            ")], utf8 "
            ");
   (Elem (utf8 "td") [] (utf8 "
                ") [
    (Elem (utf8 "p") [] (utf8 "
                    ") [
     (Elem (utf8 "span") [(utf8 "class", utf8 "txtfmt1")] (utf8 "CMB Data Metadata Mixed Memory Support (CDMMMS):") [], utf8 "");
     (Elem (utf8 "span") [] (utf8 " If this bit is
                        set to ‘1’, then the restriction on data and metadata use of Controller Buffer Memory by a
                        command as defined in section ") [], utf8 "");
     (Elem (utf8 "span") [] (utf8 "8.2.1") [], utf8 "");
     (Elem (utf8 "span") [] (utf8 " is not enforced. If this bit is
                        cleared to ‘0’, then the restriction on data and metadata use of Controller Buffer Memory by a
                        command as defined in section ") [], utf8 "");
     (Elem (utf8 "span") [] (utf8 "8.2.1") [], utf8 "");
     (Elem (utf8 "span") [] (utf8 " is enforced.") [], utf8 "
                ")], utf8 "
            ")], utf8 "
        ")], utf8 "
        ");
  (Elem (utf8 "tr") [] (utf8 "
            ") [
   (Elem (utf8 "td") [] (utf8 "
                ") [
    (Elem (utf8 "p") [] (utf8 "
                    ") [
     (Elem (utf8 "span") [] (utf8 "06") [], utf8 "
                ")], utf8 "
            ")], utf8 "
            ");
   (Elem (utf8 "td") [] (utf8 "
                ") [
    (Elem (utf8 "p") [] (utf8 "
                    ") [
     (Elem (utf8 "span") [] (utf8 "RO") [], utf8 "
                ")], utf8 "
            ")], utf8 "
            ");
   (Elem (utf8 "td") [] (utf8 "
                ") [
    (Elem (utf8 "p") [] (utf8 "
                    ") [
     (Elem (utf8 "span") [] (utf8 "Impl Spec") [], utf8 "
                ")], utf8 "
            ")], utf8 "
            ");
   (Elem (utf8 "td") [] (utf8 "
                ") [
    (Elem (utf8 "p") [] (utf8 "
                    ") [
     (Elem (utf8 "span") [(utf8 "class", utf8 "txtfmt1")] (utf8 "CMB Data Pointer and Command Independent Locations Support
                        (CDPCILS):") [], utf8 "");
     (Elem (utf8 "span") [] (utf8 " If this bit is set to ‘1’, then the restriction that the PRP Lists and
                        SGLs shall not be located in the Controller Buffer Memory if the command that they are
                        associated with is not located in the Controller Buffer Memory is not enforced (refer to
                        section") [], utf8 "");
     (Elem (utf8 "span") [] (utf8 " ") [], utf8 "");
     (Elem (utf8 "span") [] (utf8 "8.2.1") [], utf8 "");
     (Elem (utf8 "span") [] (utf8 "). If this bit is cleared to ‘0’, then that
                        restriction is enforced.") [], utf8 "
                ")], utf8 "
            ")], utf8 "
        ")], utf8 "
        ");
  (Elem (utf8 "tr") [] (utf8 "
            ") [
   (Elem (utf8 "td") [] (utf8 "
                ") [
    (Elem (utf8 "p") [] (utf8 "
                    ") [
     (Elem (utf8 "span") [] (utf8 "05") [], utf8 "
                ")], utf8 "
            ")], utf8 "
            ");
   (Elem (utf8 "td") [] (utf8 "
                ") [
    (Elem (utf8 "p") [] (utf8 "
                    ") [
     (Elem (utf8 "span") [] (utf8 "RO") [], utf8 "
                ")], utf8 "
            ")], utf8 "
            ");
   (Elem (utf8 "td") [] (utf8 "
                ") [
    (Elem (utf8 "p") [] (utf8 "
                    ") [
     (Elem (utf8 "span") [] (utf8 "Impl Spec") [], utf8 "
                ")], utf8 "
            ")], utf8 "
            ");
   (Elem (utf8 "td") [] (utf8 "
                ") [
    (Elem (utf8 "p") [] (utf8 "
                    ") [
     (Elem (utf8 "span") [(utf8 "class", utf8 "txtfmt1")] (utf8 "CMB Data Pointer Mixed Locations Support (CDPMLS):") [], utf8 "");
     (Elem (utf8 "span") [] (utf8 " If this bit is
                        set to ‘1’, then the restriction that for a particular PRP List or SGL associated with a single
                        command, all memory that ") [], utf8 "");
     (Elem (utf8 "span") [] (utf8 "contains") [], utf8 "");
     (Elem (utf8 "span") [] (utf8 " that particular PRP List or SGL
                        shall reside in either the Controller Memory Buffer or outside the Controller Memory Buffer, is
                        not enforced (refer to section") [], utf8 "");
     (Elem (utf8 "span") [] (utf8 " ") [], utf8 "");
     (Elem (utf8 "span") [] (utf8 "8.2.1") [], utf8 "");
     (Elem (utf8 "span") [] (utf8 "). If this bit is
                        cleared to ‘0’, then that restriction is enforced.") [], utf8 "
                ")], utf8 "
            ")], utf8 "
        ")], utf8 "
        ");
  (Elem (utf8 "tr") [] (utf8 "
            ") [
   (Elem (utf8 "td") [] (utf8 "
                ") [
    (Elem (utf8 "p") [] (utf8 "
                    ") [
     (Elem (utf8 "span") [] (utf8 "04") [], utf8 "
                ")], utf8 "
            ")], utf8 "
            ");
   (Elem (utf8 "td") [] (utf8 "
                ") [
    (Elem (utf8 "p") [] (utf8 "
                    ") [
     (Elem (utf8 "span") [] (utf8 "RO") [], utf8 "
                ")], utf8 "
            ")], utf8 "
            ");
   (Elem (utf8 "td") [] (utf8 "
                ") [
    (Elem (utf8 "p") [] (utf8 "
                    ") [
     (Elem (utf8 "span") [] (utf8 "Impl Spec") [], utf8 "
                ")], utf8 "
            ")], utf8 "
            ");
   (Elem (utf8 "td") [] (utf8 "
                ") [
    (Elem (utf8 "p") [] (utf8 "
                    ") [
     (Elem (utf8 "span") [(utf8 "class", utf8 "txtfmt1")] (utf8 "CMB Queue Physically Discontiguous Support (CQPDS):") [], utf8 "");
     (Elem (utf8 "span") [] (utf8 " If this bit
                        is set to ‘1’, then the restriction that for all queues in the Controller Memory Buffer, the
                        queue shall be physically contiguous, is not enforced (refer to section
                    ") [], utf8 "");
     (Elem (utf8 "span") [] (utf8 "8.2.1") [], utf8 "");
     (Elem (utf8 "span") [] (utf8 "). If this bit is cleared to ‘0’, then that restriction is
                        enforced.") [], utf8 "
                ")], utf8 "
            ")], utf8 "
        ")], utf8 "
        ");
  (Elem (utf8 "tr") [] (utf8 "
            ") [
   (Elem (utf8 "td") [] (utf8 "
                ") [
    (Elem (utf8 "p") [] (utf8 "
                    ") [
     (Elem (utf8 "span") [] (utf8 "03") [], utf8 "
                ")], utf8 "
            ")], utf8 "
            ");
   (Elem (utf8 "td") [] (utf8 "
                ") [
    (Elem (utf8 "p") [] (utf8 "
                    ") [
     (Elem (utf8 "span") [] (utf8 "RO") [], utf8 "
                ")], utf8 "
            ")], utf8 "
            ");
   (Elem (utf8 "td") [] (utf8 "
                ") [
    (Elem (utf8 "p") [] (utf8 "
                    ") [
     (Elem (utf8 "span") [] (utf8 "Impl Spec") [], utf8 "
                ")], utf8 "
            ")], utf8 "
            ");
   (Elem (utf8 "td") [] (utf8 "
                ") [
    (Elem (utf8 "p") [] (utf8 "
                    ") [
     (Elem (utf8 "span") [(utf8 "class", utf8 "txtfmt1")] (utf8 "CMB Queue Mixed Memory Support (CQMMS):") [], utf8 "");
     (Elem (utf8 "span") [] (utf8 " If this bit is set to
                        ‘1’, then for a particular queue placed in the Controller Memory Buffer, the restriction that
                        all memory associated with that queue shall reside in the Controller Memory Buffer is not
                        enforced (refer to section ") [], utf8 "");
     (Elem (utf8 "span") [] (utf8 "8.2.1") [], utf8 "");
     (Elem (utf8 "span") [] (utf8 "). If this bit is cleared to ‘0’, then
                        that requirement is enforced.") [], utf8 "
                ")], utf8 "
            ")], utf8 "
        ")], utf8 "
        ");
  (Elem (utf8 "tr") [] (utf8 "
            ") [
   (Elem (utf8 "td") [] (utf8 "
                ") [
    (Elem (utf8 "p") [] (utf8 "
                    ") [
     (Elem (utf8 "span") [] (utf8 "02:00") [], utf8 "
                ")], utf8 "
            ")], utf8 "
            ");
   (Elem (utf8 "td") [] (utf8 "
                ") [
    (Elem (utf8 "p") [] (utf8 "
                    ") [
     (Elem (utf8 "span") [] (utf8 "RO") [], utf8 "
                ")], utf8 "
            ")], utf8 "
            ");
   (Elem (utf8 "td") [] (utf8 "
                ") [
    (Elem (utf8 "p") [] (utf8 "
                    ") [
     (Elem (utf8 "span") [] (utf8 "Impl Spec") [], utf8 "
                ")], utf8 "
            ")], utf8 "
            ");
   (Elem (utf8 "td") [] (utf8 "
                ") [
    (Elem (utf8 "p") [] (utf8 "
                    ") [
     (Elem (utf8 "span") [(utf8 "class", utf8 "txtfmt1")] (utf8 "Base Indicator Register (BIR):") [], utf8 "");
     (Elem (utf8 "span") [] (utf8 " Indicates the Base Address
                        Register (BAR) that contains the Controller Memory Buffer. For a 64-bit BAR, the BAR for the
                    ") [], utf8 "");
     (Elem (utf8 "span") [] (utf8 "least significant ") [], utf8 "");
     (Elem (utf8 "span") [] (utf8 "32-bits of the address is specified. Values 000b, 010b,
                        011b, 100b, and 101b are valid. The address specified by the ") [], utf8 "");
     (Elem (utf8 "span") [] (utf8 "bar") [], utf8 "");
     (Elem (utf8 "span") [] (utf8 " shall
                        be 4 KiB aligned.") [], utf8 "
                ")], utf8 "
            ")], utf8 "
        ")], utf8 "
    ")], utf8 "
")], [])].

(** /repo/tests/test_html_figures.py:67 *)
Example conf_bits_fig47 : conf_ents doc_bits_fig47 = Some [
  mkEntity (mkMeta (Some (utf8 "Figure 47: Offset 38h: CMBLOC – Controller Memory Buffer Location")) (utf8 "47") None) (BStruct KBits [mkSField (utf8 "bir") (RInt (0)%Z (2)%Z) None; mkSField (utf8 "cqmms") (RInt (3)%Z (3)%Z) None; mkSField (utf8 "cqpds") (RInt (4)%Z (4)%Z) None; mkSField (utf8 "cdpmls") (RInt (5)%Z (5)%Z) None; mkSField (utf8 "cdpcils") (RInt (6)%Z (6)%Z) None; mkSField (utf8 "cdmmms") (RInt (7)%Z (7)%Z) None; mkSField (utf8 "cqda") (RInt (8)%Z (8)%Z) (Some (utf8 "If this bit is set to ‘1’, CDW11")); mkSField (utf8 "RESERVED") (RInt (9)%Z (11)%Z) None; mkSField (utf8 "ofst") (RInt (12)%Z (31)%Z) None])].
Proof. vm_compute. reflexivity. Qed.

Example conf_bits_fig47_not_skipped : existsb (code_eqb T1007) (conf_codes doc_bits_fig47) = false.
Proof. vm_compute. reflexivity. Qed.

Definition doc_bytes_fig93 : elem :=
 Elem (utf8 "html") [] [] [(Elem (utf8 "body") [] (utf8 "
    ") [
 (Elem (utf8 "table") [] (utf8 "
        ") [
  (Elem (utf8 "tr") [] (utf8 "
   ") [
   (Elem (utf8 "td") [(utf8 "colspan", utf8 "2")] (utf8 "
    ") [
    (Elem (utf8 "p") [] (utf8 "
     ") [
     (Elem (utf8 "span") [] (utf8 "Figure ") [], utf8 "");
     (Elem (utf8 "span") [] (utf8 "93") [], utf8 "");
     (Elem (utf8 "span") [] (utf8 ": Common Command Format –") [], utf8 "");
     (Elem (utf8 "span") [] (utf8 " ") [], utf8 "");
     (Elem (utf8 "span") [] (utf8 "Vendor Specific Commands (Optional)") [], utf8 "
    ")], utf8 "
   ")], utf8 "
  ")], utf8 "
  ");
  (Elem (utf8 "tr") [] (utf8 "
   ") [
   (Elem (utf8 "th") [(utf8 "class", utf8 "tcell0")] (utf8 "
    ") [
    (Elem (utf8 "p") [] (utf8 "
     ") [
     (Elem (utf8 "span") [] (utf8 "Bytes") [], utf8 "
    ")], utf8 "
   ")], utf8 "
   ");
   (Elem (utf8 "th") [(utf8 "class", utf8 "tcell0")] (utf8 "
    ") [
    (Elem (utf8 "p") [] (utf8 "
     ") [
     (Elem (utf8 "span") [] (utf8 "Description") [], utf8 "
    ")], utf8 "
   ")], utf8 "
  ")], utf8 "
  ");
  (Elem (utf8 "tr") [] (utf8 "
   ") [
   (Elem (utf8 "td") [] (utf8 "
    ") [
    (Elem (utf8 "p") [] (utf8 "
     ") [
     (Elem (utf8 "span") [] (utf8 "03:00") [], utf8 "
    ")], utf8 "
   ")], utf8 "
   ");
   (Elem (utf8 "td") [] (utf8 "
    ") [
    (Elem (utf8 "p") [] (utf8 "
     ") [
     (Elem (utf8 "span") [(utf8 "class", utf8 "txtfmt1")] (utf8 "Command Dword 0 (CDW0): ") [], utf8 "");
     (Elem (utf8 "span") [] (utf8 "This field is common to all commands and is defined in ") [], utf8 "");
     (Elem (utf8 "span") [] (utf8 "Figure ") [], utf8 "");
     (Elem (utf8 "span") [] (utf8 "91") [], utf8 "");
     (Elem (utf8 "span") [] (utf8 ".") [], utf8 "
    ")], utf8 "
   ")], utf8 "
  ")], utf8 "
  ");
  (Elem (utf8 "tr") [] (utf8 "
   ") [
   (Elem (utf8 "td") [] (utf8 "
    ") [
    (Elem (utf8 "p") [] (utf8 "
     ") [
     (Elem (utf8 "span") [] (utf8 "07:04") [], utf8 "
    ")], utf8 "
   ")], utf8 "
   ");
   (Elem (utf8 "td") [] (utf8 "
    ") [
    (Elem (utf8 "p") [] (utf8 "
     ") [
     (Elem (utf8 "span") [(utf8 "class", utf8 "txtfmt1")] (utf8 "Namespace Identifier (NSID): ") [], utf8 "");
     (Elem (utf8 "span") [] (utf8 "This field indicates the namespace ID that this command applies to. If the namespace ID is not used for the command, then this field shall be cleared to 0h. Setting this value to FFFFFFFFh causes the command to be applied to all namespaces attached to the controller processing the command, unless otherwise specified.") [], utf8 "
    ")], utf8 "
    ");
    (Elem (utf8 "p") [] (utf8 "
     ") [
     (Elem (utf8 "span") [] (utf8 "The behavior of a controller in response to an inactive namespace ID for a vendor specific command is vendor specific. Specifying an invalid namespace ID in a command that uses the namespace ID shall cause the controller to abort the command with a status code of Invalid Namespace or Format, unless otherwise specified.") [], utf8 "
    ")], utf8 "
   ")], utf8 "
  ")], utf8 "
  ");
  (Elem (utf8 "tr") [] (utf8 "
   ") [
   (Elem (utf8 "td") [] (utf8 "
    ") [
    (Elem (utf8 "p") [] (utf8 "
     ") [
     (Elem (utf8 "span") [] (utf8 "39:08") [], utf8 "
    ")], utf8 "
   ")], utf8 "
   ");
   (Elem (utf8 "td") [] (utf8 "
    ") [
    (Elem (utf8 "p") [] (utf8 "
     ") [
     (Elem (utf8 "span") [] (utf8 "Reserved") [], utf8 "
    ")], utf8 "
   ")], utf8 "
  ")], utf8 "
  ");
  (Elem (utf8 "tr") [] (utf8 "
   ") [
   (Elem (utf8 "td") [] (utf8 "
    ") [
    (Elem (utf8 "p") [] (utf8 "
     ") [
     (Elem (utf8 "span") [] (utf8 "43:40") [], utf8 "
    ")], utf8 "
   ")], utf8 "
   ");
   (Elem (utf8 "td") [] (utf8 "
    ") [
    (Elem (utf8 "p") [] (utf8 "
     ") [
     (Elem (utf8 "span") [(utf8 "class", utf8 "txtfmt1")] (utf8 "Number of Dwords in Data Transfer (NDT):") [], utf8 "");
     (Elem (utf8 "span") [] (utf8 " This field indicates the number of dwords in the data transfer.") [], utf8 "
    ")], utf8 "
   ")], utf8 "
  ")], utf8 "
  ");
  (Elem (utf8 "tr") [] (utf8 "
   ") [
   (Elem (utf8 "td") [] (utf8 "
    ") [
    (Elem (utf8 "p") [] (utf8 "
     ") [
     (Elem (utf8 "span") [] (utf8 "47:44") [], utf8 "
    ")], utf8 "
   ")], utf8 "
   ");
   (Elem (utf8 "td") [] (utf8 "
    ") [
    (Elem (utf8 "p") [] (utf8 "
     ") [
     (Elem (utf8 "span") [(utf8 "class", utf8 "txtfmt1")] (utf8 "Number of Dwords in Metadata Transfer (NDM):") [], utf8 "");
     (Elem (utf8 "span") [] (utf8 " This field indicates the number of dwords in the metadata transfer.") [], utf8 "
    ")], utf8 "
   ")], utf8 "
  ")], utf8 "
  ");
  (Elem (utf8 "tr") [] (utf8 "
   ") [
   (Elem (utf8 "td") [] (utf8 "
    ") [
    (Elem (utf8 "p") [] (utf8 "
     ") [
     (Elem (utf8 "span") [] (utf8 "51:48") [], utf8 "
    ")], utf8 "
   ")], utf8 "
   ");
   (Elem (utf8 "td") [] (utf8 "
    ") [
    (Elem (utf8 "p") [] (utf8 "
     ") [
     (Elem (utf8 "span") [(utf8 "class", utf8 "txtfmt1")] (utf8 "Command Dword 12 (CDW12):") [], utf8 "");
     (Elem (utf8 "span") [] (utf8 " This field is command specific Dword 12.") [], utf8 "
    ")], utf8 "
   ")], utf8 "
  ")], utf8 "
  ");
  (Elem (utf8 "tr") [] (utf8 "
   ") [
   (Elem (utf8 "td") [] (utf8 "
    ") [
    (Elem (utf8 "p") [] (utf8 "
     ") [
     (Elem (utf8 "span") [] (utf8 "55:52") [], utf8 "
    ")], utf8 "
   ")], utf8 "
   ");
   (Elem (utf8 "td") [] (utf8 "
    ") [
    (Elem (utf8 "p") [] (utf8 "
     ") [
     (Elem (utf8 "span") [(utf8 "class", utf8 "txtfmt1")] (utf8 "Command Dword 13 (CDW13):") [], utf8 "");
     (Elem (utf8 "span") [] (utf8 " This field is command specific Dword 13.") [], utf8 "
    ")], utf8 "
   ")], utf8 "
  ")], utf8 "
  ");
  (Elem (utf8 "tr") [] (utf8 "
   ") [
   (Elem (utf8 "td") [] (utf8 "
    ") [
    (Elem (utf8 "p") [] (utf8 "
     ") [
     (Elem (utf8 "span") [] (utf8 "59:56") [], utf8 "
    ")], utf8 "
   ")], utf8 "
   ");
   (Elem (utf8 "td") [] (utf8 "
    ") [
    (Elem (utf8 "p") [] (utf8 "
     ") [
     (Elem (utf8 "span") [(utf8 "class", utf8 "txtfmt1")] (utf8 "Command Dword 14 (CDW14):") [], utf8 "");
     (Elem (utf8 "span") [] (utf8 " This field is command specific Dword 14.") [], utf8 "
    ")], utf8 "
   ")], utf8 "
  ")], utf8 "
  ");
  (Elem (utf8 "tr") [] (utf8 "
   ") [
   (Elem (utf8 "td") [] (utf8 "
    ") [
    (Elem (utf8 "p") [] (utf8 "
     ") [
     (Elem (utf8 "span") [] (utf8 "63:60") [], utf8 "
    ")], utf8 "
   ")], utf8 "
   ");
   (Elem (utf8 "td") [] (utf8 "
    ") [
    (Elem (utf8 "p") [] (utf8 "
     ") [
     (Elem (utf8 "span") [(utf8 "class", utf8 "txtfmt1")] (utf8 "Command Dword 15 (CDW15):") [], utf8 "");
     (Elem (utf8 "span") [] (utf8 " This field is command specific Dword 15.") [], utf8 "
    ")], utf8 "
   ")], utf8 "
  ")], utf8 "
 ")], utf8 "
")], [])].

(** /repo/tests/test_html_figures.py:121 *)
Example conf_bytes_fig93 : conf_ents doc_bytes_fig93 = Some [
  mkEntity (mkMeta (Some (utf8 "Figure 93: Common Command Format – Vendor Specific Commands (Optional)")) (utf8 "93") None) (BStruct KBytes [mkSField (utf8 "cdw0") (RInt (0)%Z (3)%Z) None; mkSField (utf8 "nsid") (RInt (4)%Z (7)%Z) None; mkSField (utf8 "RESERVED") (RInt (8)%Z (39)%Z) None; mkSField (utf8 "ndt") (RInt (40)%Z (43)%Z) None; mkSField (utf8 "ndm") (RInt (44)%Z (47)%Z) None; mkSField (utf8 "cdw12") (RInt (48)%Z (51)%Z) (Some (utf8 "This field is command specific Dword 12")); mkSField (utf8 "cdw13") (RInt (52)%Z (55)%Z) (Some (utf8 "This field is command specific Dword 13")); mkSField (utf8 "cdw14") (RInt (56)%Z (59)%Z) (Some (utf8 "This field is command specific Dword 14")); mkSField (utf8 "cdw15") (RInt (60)%Z (63)%Z) (Some (utf8 "This field is command specific Dword 15"))])].
Proof. vm_compute. reflexivity. Qed.

Example conf_bytes_fig93_not_skipped : existsb (code_eqb T1007) (conf_codes doc_bytes_fig93) = false.
Proof. vm_compute. reflexivity. Qed.

Definition doc_bytes_fig95 : elem :=
 Elem (utf8 "html") [] [] [(Elem (utf8 "body") [] (utf8 "
 
") [
 (Elem (utf8 "table") [] (utf8 "
  ") [
  (Elem (utf8 "tr") [] (utf8 "
   ") [
   (Elem (utf8 "td") [(utf8 "colspan", utf8 "2")] (utf8 "
    ") [
    (Elem (utf8 "p") [] (utf8 "
     ") [
     (Elem (utf8 "span") [] (utf8 "Figure ") [], utf8 "");
     (Elem (utf8 "span") [] (utf8 "95") [], utf8 "");
     (Elem (utf8 "span") [] (utf8 ": Fabrics Command") [], utf8 "");
     (Elem (utf8 "span") [] (utf8 " ") [], utf8 "");
     (Elem (utf8 "span") [] (utf8 "– Command Dword 0") [], utf8 "
    ")], utf8 "
   ")], utf8 "
  ")], utf8 "
  ");
  (Elem (utf8 "tr") [] (utf8 "
   ") [
   (Elem (utf8 "th") [(utf8 "class", utf8 "tcell0")] (utf8 "
    ") [
    (Elem (utf8 "p") [] (utf8 "
     ") [
     (Elem (utf8 "span") [] (utf8 "Bits") [], utf8 "
    ")], utf8 "
   ")], utf8 "
   ");
   (Elem (utf8 "th") [(utf8 "class", utf8 "tcell0")] (utf8 "
    ") [
    (Elem (utf8 "p") [] (utf8 "
     ") [
     (Elem (utf8 "span") [] (utf8 "Description") [], utf8 "
    ")], utf8 "
   ")], utf8 "
  ")], utf8 "
  ");
  (Elem (utf8 "tr") [] (utf8 "
   ") [
   (Elem (utf8 "td") [] (utf8 "
    ") [
    (Elem (utf8 "p") [] (utf8 "
     ") [
     (Elem (utf8 "span") [] (utf8 "31:16") [], utf8 "
    ")], utf8 "
   ")], utf8 "
   ");
   (Elem (utf8 "td") [] (utf8 "
    ") [
    (Elem (utf8 "p") [] (utf8 "
     ") [
     (Elem (utf8 "span") [(utf8 "class", utf8 "txtfmt1")] (utf8 "Command Identifier (CID):") [], utf8 "");
     (Elem (utf8 "span") [] (utf8 " Refer to ") [], utf8 "");
     (Elem (utf8 "span") [] (utf8 "Figure ") [], utf8 "");
     (Elem (utf8 "span") [] (utf8 "91") [], utf8 "");
     (Elem (utf8 "span") [] (utf8 ".") [], utf8 "
    ")], utf8 "
   ")], utf8 "
  ")], utf8 "
  ");
  (Elem (utf8 "tr") [] (utf8 "
   ") [
   (Elem (utf8 "td") [] (utf8 "
    ") [
    (Elem (utf8 "p") [] (utf8 "
     ") [
     (Elem (utf8 "span") [] (utf8 "15:14") [], utf8 "
    ")], utf8 "
   ")], utf8 "
   ");
   (Elem (utf8 "td") [] (utf8 "
    ") [
    (Elem (utf8 "p") [] (utf8 "
     ") [
     (Elem (utf8 "span") [(utf8 "class", utf8 "txtfmt1")] (utf8 "PRP or SGL for Data Transfer (PSDT):") [], utf8 "
    ")], utf8 "
    ");
    (Elem (utf8 "table") [] (utf8 "
     ") [
     (Elem (utf8 "tr") [] (utf8 "
      ") [
      (Elem (utf8 "th") [(utf8 "class", utf8 "tcell2")] (utf8 "
       ") [
       (Elem (utf8 "p") [] (utf8 "
        ") [
        (Elem (utf8 "span") [] (utf8 "Value") [], utf8 "
       ")], utf8 "
      ")], utf8 "
      ");
      (Elem (utf8 "th") [(utf8 "class", utf8 "tcell2")] (utf8 "
       ") [
       (Elem (utf8 "p") [] (utf8 "
        ") [
        (Elem (utf8 "span") [] (utf8 "Description") [], utf8 "
       ")], utf8 "
      ")], utf8 "
     ")], utf8 "
     ");
     (Elem (utf8 "tr") [] (utf8 "
      ") [
      (Elem (utf8 "td") [] (utf8 "
       ") [
       (Elem (utf8 "p") [] (utf8 "
        ") [
        (Elem (utf8 "span") [] (utf8 "00b") [], utf8 "
       ")], utf8 "
      ")], utf8 "
      ");
      (Elem (utf8 "td") [] (utf8 "
       ") [
       (Elem (utf8 "p") [] (utf8 "
        ") [
        (Elem (utf8 "span") [(utf8 "class", utf8 "txtfmt1")] (utf8 "No Data Transffered: ") [], utf8 "");
        (Elem (utf8 "span") [] (utf8 "This value is used for Fabrics commands that do not transfer data.") [], utf8 "
       ")], utf8 "
       ");
       (Elem (utf8 "p") [] (utf8 "
        ") [
        (Elem (utf8 "span") [] (utf8 "If this value is used for Fabrics commands that transfer data, then SGLs are used for this transfer. A host should use the value 10b rather than 00b for Fabrics commands that transfer data.") [], utf8 "
       ")], utf8 "
      ")], utf8 "
     ")], utf8 "
     ");
     (Elem (utf8 "tr") [] (utf8 "
      ") [
      (Elem (utf8 "td") [] (utf8 "
       ") [
       (Elem (utf8 "p") [] (utf8 "
        ") [
        (Elem (utf8 "span") [] (utf8 "01b") [], utf8 "
       ")], utf8 "
      ")], utf8 "
      ");
      (Elem (utf8 "td") [] (utf8 "
       ") [
       (Elem (utf8 "p") [] (utf8 "
        ") [
        (Elem (utf8 "span") [] (utf8 "Reserved") [], utf8 "
       ")], utf8 "
      ")], utf8 "
     ")], utf8 "
     ");
     (Elem (utf8 "tr") [] (utf8 "
      ") [
      (Elem (utf8 "td") [] (utf8 "
       ") [
       (Elem (utf8 "p") [] (utf8 "
        ") [
        (Elem (utf8 "span") [] (utf8 "10b") [], utf8 "
       ")], utf8 "
      ")], utf8 "
      ");
      (Elem (utf8 "td") [] (utf8 "
       ") [
       (Elem (utf8 "p") [] (utf8 "
        ") [
        (Elem (utf8 "span") [(utf8 "class", utf8 "txtfmt1")] (utf8 "Data Transferred: ") [], utf8 "");
        (Elem (utf8 "span") [] (utf8 "This value is used for Fabrics commands that transfer data. SGLs are used for this transfer.") [], utf8 "
       ")], utf8 "
      ")], utf8 "
     ")], utf8 "
     ");
     (Elem (utf8 "tr") [] (utf8 "
      ") [
      (Elem (utf8 "td") [] (utf8 "
       ") [
       (Elem (utf8 "p") [] (utf8 "
        ") [
        (Elem (utf8 "span") [] (utf8 "11b") [], utf8 "
       ")], utf8 "
      ")], utf8 "
      ");
      (Elem (utf8 "td") [] (utf8 "
       ") [
       (Elem (utf8 "p") [] (utf8 "
        ") [
        (Elem (utf8 "span") [] (utf8 "Reserved") [], utf8 "
       ")], utf8 "
      ")], utf8 "
     ")], utf8 "
    ")], utf8 "
   ")], utf8 "
  ")], utf8 "
  ");
  (Elem (utf8 "tr") [] (utf8 "
   ") [
   (Elem (utf8 "td") [] (utf8 "
    ") [
    (Elem (utf8 "p") [] (utf8 "
     ") [
     (Elem (utf8 "span") [] (utf8 "13:10") [], utf8 "
    ")], utf8 "
   ")], utf8 "
   ");
   (Elem (utf8 "td") [] (utf8 "
    ") [
    (Elem (utf8 "p") [] (utf8 "
     ") [
     (Elem (utf8 "span") [] (utf8 "Reserved") [], utf8 "
    ")], utf8 "
   ")], utf8 "
  ")], utf8 "
  ");
  (Elem (utf8 "tr") [] (utf8 "
   ") [
   (Elem (utf8 "td") [] (utf8 "
    ") [
    (Elem (utf8 "p") [] (utf8 "
     ") [
     (Elem (utf8 "span") [] (utf8 "09:08") [], utf8 "
    ")], utf8 "
   ")], utf8 "
   ");
   (Elem (utf8 "td") [] (utf8 "
    ") [
    (Elem (utf8 "p") [] (utf8 "
     ") [
     (Elem (utf8 "span") [(utf8 "class", utf8 "txtfmt1")] (utf8 "Fused Operation (FUSE):") [], utf8 "");
     (Elem (utf8 "span") [] (utf8 " Refer to ") [], utf8 "");
     (Elem (utf8 "span") [] (utf8 "Figure ") [], utf8 "");
     (Elem (utf8 "span") [] (utf8 "91") [], utf8 "");
     (Elem (utf8 "span") [] (utf8 ". There are no fused Fabrics commands and as a result this field is cleared to 00b.") [], utf8 "
    ")], utf8 "
   ")], utf8 "
  ")], utf8 "
  ");
  (Elem (utf8 "tr") [] (utf8 "
   ") [
   (Elem (utf8 "td") [] (utf8 "
    ") [
    (Elem (utf8 "p") [] (utf8 "
     ") [
     (Elem (utf8 "span") [] (utf8 "07:00") [], utf8 "
    ")], utf8 "
   ")], utf8 "
   ");
   (Elem (utf8 "td") [] (utf8 "
    ") [
    (Elem (utf8 "p") [] (utf8 "
     ") [
     (Elem (utf8 "span") [(utf8 "class", utf8 "txtfmt1")] (utf8 "Opcode (OPC):") [], utf8 "");
     (Elem (utf8 "span") [] (utf8 " This field is set to 7Fh to specify a Fabrics command.") [], utf8 "
    ")], utf8 "
   ")], utf8 "
  ")], utf8 "
 ")], utf8 "
")], [])].

(** /repo/tests/test_html_figures.py:172 *)
Example conf_bytes_fig95 : conf_ents doc_bytes_fig95 = Some [
  mkEntity (mkMeta None (utf8 "95_14") (Some (utf8 "95"))) (BValues [mkVField (utf8 "00b") (utf8 "NO_DATA_TRANSFFERED") None; mkVField (utf8 "01b") (utf8 "RESERVED") None; mkVField (utf8 "10b") (utf8 "DATA_TRANSFERRED") (Some (utf8 "This value is used for Fabrics commands that transfer data")); mkVField (utf8 "11b") (utf8 "RESERVED") None]);
  mkEntity (mkMeta (Some (utf8 "Figure 95: Fabrics Command – Command Dword 0")) (utf8 "95") None) (BStruct KBits [mkSField (utf8 "opc") (RInt (0)%Z (7)%Z) (Some (utf8 "This field is set to 7Fh to specify a Fabrics command")); mkSField (utf8 "fuse") (RInt (8)%Z (9)%Z) (Some (utf8 "Refer to Figure 91")); mkSField (utf8 "RESERVED") (RInt (10)%Z (13)%Z) None; mkSField (utf8 "psdt") (RInt (14)%Z (15)%Z) None; mkSField (utf8 "cid") (RInt (16)%Z (31)%Z) (Some (utf8 "Refer to Figure 91"))])].
Proof. vm_compute. reflexivity. Qed.

Example conf_bytes_fig95_not_skipped : existsb (code_eqb T1007) (conf_codes doc_bytes_fig95) = false.
Proof. vm_compute. reflexivity. Qed.

Definition doc_bytes_fig94 : elem :=
 Elem (utf8 "html") [] [] [(Elem (utf8 "body") [] (utf8 "

    ") [
 (Elem (utf8 "table") [] (utf8 "
        ") [
  (Elem (utf8 "tr") [] (utf8 "
            ") [
   (Elem (utf8 "td") [(utf8 "colspan", utf8 "2")] (utf8 "
                ") [
    (Elem (utf8 "p") [] (utf8 "
                    ") [
     (Elem (utf8 "span") [] (utf8 "Figure ") [], utf8 "");
     (Elem (utf8 "span") [] (utf8 "94") [], utf8 "");
     (Elem (utf8 "span") [] (utf8 ": Fabrics Command") [], utf8 "");
     (Elem (utf8 "span") [] (utf8 " ") [], utf8 "");
     (Elem (utf8 "span") [] (utf8 "– Submission
                        Queue Entry Format") [], utf8 "
                ")], utf8 "
            ")], utf8 "
        ")], utf8 "
        ");
  (Elem (utf8 "tr") [] (utf8 "
            ") [
   (Elem (utf8 "th") [(utf8 "class", utf8 "tcell0")] (utf8 "
                ") [
    (Elem (utf8 "p") [] (utf8 "
                    ") [
     (Elem (utf8 "span") [] (utf8 "Bytes") [], utf8 "
                ")], utf8 "
            ")], utf8 "
            ");
   (Elem (utf8 "th") [(utf8 "class", utf8 "tcell0")] (utf8 "
                ") [
    (Elem (utf8 "p") [] (utf8 "
                    ") [
     (Elem (utf8 "span") [] (utf8 "Description") [], utf8 "
                ")], utf8 "
            ")], utf8 "
        ")], utf8 "
        ");
  (Elem (utf8 "tr") [] (utf8 "
            ") [
   (Elem (utf8 "td") [] (utf8 "
                ") [
    (Elem (utf8 "p") [] (utf8 "
                    ") [
     (Elem (utf8 "span") [] (utf8 "03:00") [], utf8 "
                ")], utf8 "
            ")], utf8 "
            ");
   (Elem (utf8 "td") [] (utf8 "
                ") [
    (Elem (utf8 "p") [] (utf8 "
                    ") [
     (Elem (utf8 "span") [(utf8 "class", utf8 "txtfmt1")] (utf8 "Command Dword 0") [], utf8 "");
     (Elem (utf8 "span") [(utf8 "class", utf8 "txtfmt1")] (utf8 " (CDW0)") [], utf8 "");
     (Elem (utf8 "span") [(utf8 "class", utf8 "txtfmt1")] (utf8 ":") [], utf8 "");
     (Elem (utf8 "span") [] (utf8 " Refer to ") [], utf8 "");
     (Elem (utf8 "span") [] (utf8 "Figure ") [], utf8 "");
     (Elem (utf8 "span") [] (utf8 "95") [], utf8 "");
     (Elem (utf8 "span") [] (utf8 ".") [], utf8 "
                ")], utf8 "
            ")], utf8 "
        ")], utf8 "
        ");
  (Elem (utf8 "tr") [] (utf8 "
            ") [
   (Elem (utf8 "td") [] (utf8 "
                ") [
    (Elem (utf8 "p") [] (utf8 "
                    ") [
     (Elem (utf8 "span") [] (utf8 "04") [], utf8 "
                ")], utf8 "
            ")], utf8 "
            ");
   (Elem (utf8 "td") [] (utf8 "
                ") [
    (Elem (utf8 "p") [] (utf8 "
                    ") [
     (Elem (utf8 "span") [(utf8 "class", utf8 "txtfmt1")] (utf8 "Fabrics Command Type (FCTYPE): ") [], utf8 "");
     (Elem (utf8 "span") [] (utf8 "This field specifies the Fabrics
                        command transferred in the capsule. The Fabrics command types are defined in ") [], utf8 "");
     (Elem (utf8 "span") [] (utf8 "Figure
                    ") [], utf8 "");
     (Elem (utf8 "span") [] (utf8 "538") [], utf8 "");
     (Elem (utf8 "span") [] (utf8 ". If this field is set to a reserved value, the") [], utf8 "");
     (Elem (utf8 "span") [] (utf8 "n
                        the") [], utf8 "");
     (Elem (utf8 "span") [] (utf8 " command shall be aborted with a status code of Invalid Field in
                        Command.") [], utf8 "");
     (Elem (utf8 "span") [] (utf8 " The format of the FCTYPE field is shown here:") [], utf8 "
                ")], utf8 "
                ");
    (Elem (utf8 "table") [] (utf8 "
                    ") [
     (Elem (utf8 "tr") [] (utf8 "
                        ") [
      (Elem (utf8 "th") [(utf8 "class", utf8 "tcell1")] (utf8 "
                            ") [
       (Elem (utf8 "p") [] (utf8 "
                                ") [
        (Elem (utf8 "span") [(utf8 "class", utf8 "txtfmt1")] (utf8 "Bit") [], utf8 "");
        (Elem (utf8 "span") [(utf8 "class", utf8 "txtfmt1")] (utf8 "s") [], utf8 "
                            ")], utf8 "
                        ")], utf8 "
                        ");
      (Elem (utf8 "th") [(utf8 "class", utf8 "tcell1")] (utf8 "
                            ") [
       (Elem (utf8 "p") [] (utf8 "
                                ") [
        (Elem (utf8 "span") [(utf8 "class", utf8 "txtfmt1")] (utf8 "Description") [], utf8 "
                            ")], utf8 "
                        ")], utf8 "
                    ")], utf8 "
                    ");
     (Elem (utf8 "tr") [] (utf8 "
                        ") [
      (Elem (utf8 "td") [] (utf8 "
                            ") [
       (Elem (utf8 "p") [] (utf8 "
                                ") [
        (Elem (utf8 "span") [] (utf8 "07:02") [], utf8 "
                            ")], utf8 "
                        ")], utf8 "
                        ");
      (Elem (utf8 "td") [] (utf8 "
                            ") [
       (Elem (utf8 "p") [] (utf8 "
                                ") [
        (Elem (utf8 "span") [(utf8 "class", utf8 "txtfmt1")] (utf8 "Function: ") [], utf8 "");
        (Elem (utf8 "span") [] (utf8 "This field contains a value that, in
                                    combination with the other fields in the Fabrics Command Type data structure,
                                    creates a unique Combined Fabrics Command Type.") [], utf8 "
                            ")], utf8 "
                        ")], utf8 "
                    ")], utf8 "
                    ");
     (Elem (utf8 "tr") [] (utf8 "
                        ") [
      (Elem (utf8 "td") [] (utf8 "
                            ") [
       (Elem (utf8 "p") [] (utf8 "
                                ") [
        (Elem (utf8 "span") [] (utf8 "01:00") [], utf8 "
                            ")], utf8 "
                        ")], utf8 "
                        ");
      (Elem (utf8 "td") [] (utf8 "
                            ") [
       (Elem (utf8 "p") [] (utf8 "
                                ") [
        (Elem (utf8 "span") [(utf8 "class", utf8 "txtfmt1")] (utf8 "Data ") [], utf8 "");
        (Elem (utf8 "span") [(utf8 "class", utf8 "txtfmt1")] (utf8 "Transfer Direction:") [], utf8 "");
        (Elem (utf8 "span") [] (utf8 "
                                    This field indicates the direction of a data transfer, if any. ") [], utf8 "");
        (Elem (utf8 "span") [] (utf8 "All
                                    options of the command shall transfer data as specified or transfer no data. All
                                    commands, including vendor specific commands, shall follow this convention.") [], utf8 "
                            ")], utf8 "
                            ");
       (Elem (utf8 "table") [] (utf8 "
                                ") [
        (Elem (utf8 "tr") [] (utf8 "
                                    ") [
         (Elem (utf8 "th") [(utf8 "class", utf8 "tcell2")] (utf8 "
                                        ") [
          (Elem (utf8 "p") [] (utf8 "
                                            ") [
           (Elem (utf8 "span") [(utf8 "class", utf8 "txtfmt1")] (utf8 "Value") [], utf8 "
                                        ")], utf8 "
                                    ")], utf8 "
                                    ");
         (Elem (utf8 "th") [(utf8 "class", utf8 "tcell2")] (utf8 "
                                        ") [
          (Elem (utf8 "p") [] (utf8 "
                                            ") [
           (Elem (utf8 "span") [(utf8 "class", utf8 "txtfmt1")] (utf8 "Description") [], utf8 "
                                        ")], utf8 "
                                    ")], utf8 "
                                ")], utf8 "
                                ");
        (Elem (utf8 "tr") [] (utf8 "
                                    ") [
         (Elem (utf8 "td") [] (utf8 "
                                        ") [
          (Elem (utf8 "p") [] (utf8 "
                                            ") [
           (Elem (utf8 "span") [] (utf8 "00b") [], utf8 "
                                        ")], utf8 "
                                    ")], utf8 "
                                    ");
         (Elem (utf8 "td") [] (utf8 "
                                        ") [
          (Elem (utf8 "p") [] (utf8 "
                                            ") [
           (Elem (utf8 "span") [] (utf8 "No data is transferred.") [], utf8 "
                                        ")], utf8 "
                                    ")], utf8 "
                                ")], utf8 "
                                ");
        (Elem (utf8 "tr") [] (utf8 "
                                    ") [
         (Elem (utf8 "td") [] (utf8 "
                                        ") [
          (Elem (utf8 "p") [] (utf8 "
                                            ") [
           (Elem (utf8 "span") [] (utf8 "01b") [], utf8 "
                                        ")], utf8 "
                                    ")], utf8 "
                                    ");
         (Elem (utf8 "td") [] (utf8 "
                                        ") [
          (Elem (utf8 "p") [] (utf8 "
                                            ") [
           (Elem (utf8 "span") [] (utf8 "Data is transferred from the host to the controller.") [], utf8 "
                                        ")], utf8 "
                                    ")], utf8 "
                                ")], utf8 "
                                ");
        (Elem (utf8 "tr") [] (utf8 "
                                    ") [
         (Elem (utf8 "td") [] (utf8 "
                                        ") [
          (Elem (utf8 "p") [] (utf8 "
                                            ") [
           (Elem (utf8 "span") [] (utf8 "10b") [], utf8 "
                                        ")], utf8 "
                                    ")], utf8 "
                                    ");
         (Elem (utf8 "td") [] (utf8 "
                                        ") [
          (Elem (utf8 "p") [] (utf8 "
                                            ") [
           (Elem (utf8 "span") [] (utf8 "Data is transferred from the controller to the host.") [], utf8 "
                                        ")], utf8 "
                                    ")], utf8 "
                                ")], utf8 "
                                ");
        (Elem (utf8 "tr") [] (utf8 "
                                    ") [
         (Elem (utf8 "td") [] (utf8 "
                                        ") [
          (Elem (utf8 "p") [] (utf8 "
                                            ") [
           (Elem (utf8 "span") [] (utf8 "11b") [], utf8 "
                                        ")], utf8 "
                                    ")], utf8 "
                                    ");
         (Elem (utf8 "td") [] (utf8 "
                                        ") [
          (Elem (utf8 "p") [] (utf8 "
                                            ") [
           (Elem (utf8 "span") [] (utf8 "Reserved.") [], utf8 "
                                        ")], utf8 "
                                    ")], utf8 "
                                ")], utf8 "
                            ")], utf8 "
                        ")], utf8 "
                    ")], utf8 "
                ")], utf8 "
            ")], utf8 "
        ")], utf8 "
        ");
  (Elem (utf8 "tr") [] (utf8 "
            ") [
   (Elem (utf8 "td") [] (utf8 "
                ") [
    (Elem (utf8 "p") [] (utf8 "
                    ") [
     (Elem (utf8 "span") [] (utf8 "23:05") [], utf8 "
                ")], utf8 "
            ")], utf8 "
            ");
   (Elem (utf8 "td") [] (utf8 "
                ") [
    (Elem (utf8 "p") [] (utf8 "
                    ") [
     (Elem (utf8 "span") [] (utf8 "Reserved") [], utf8 "
                ")], utf8 "
            ")], utf8 "
        ")], utf8 "
        ");
  (Elem (utf8 "tr") [] (utf8 "
            ") [
   (Elem (utf8 "td") [] (utf8 "
                ") [
    (Elem (utf8 "p") [] (utf8 "
                    ") [
     (Elem (utf8 "span") [] (utf8 "39:24") [], utf8 "
                ")], utf8 "
            ")], utf8 "
            ");
   (Elem (utf8 "td") [] (utf8 "
                ") [
    (Elem (utf8 "p") [] (utf8 "
                    ") [
     (Elem (utf8 "span") [(utf8 "class", utf8 "txtfmt1")] (utf8 "SGL Descriptor 1 (SGL1):") [], utf8 "");
     (Elem (utf8 "span") [] (utf8 " This field contains a Transport SGL Data
                        Block descriptor or a Keyed SGL Data Block descriptor that describes the entire data transfer.
                        Refer to section ") [], utf8 "");
     (Elem (utf8 "span") [] (utf8 "4.3.2") [], utf8 "");
     (Elem (utf8 "span") [] (utf8 " for the definition of SGL descriptors.") [], utf8 "
                ")], utf8 "
                ");
    (Elem (utf8 "p") [] (utf8 "
                    ") [
     (Elem (utf8 "span") [] (utf8 "This field is used for Fabrics commands that transfer data. If a Fabrics command does not
                        transfer data, then this field is reserved.") [], utf8 "
                ")], utf8 "
            ")], utf8 "
        ")], utf8 "
        ");
  (Elem (utf8 "tr") [] (utf8 "
            ") [
   (Elem (utf8 "td") [] (utf8 "
                ") [
    (Elem (utf8 "p") [] (utf8 "
                    ") [
     (Elem (utf8 "span") [] (utf8 "63:40") [], utf8 "
                ")], utf8 "
            ")], utf8 "
            ");
   (Elem (utf8 "td") [] (utf8 "
                ") [
    (Elem (utf8 "p") [] (utf8 "
                    ") [
     (Elem (utf8 "span") [(utf8 "class", utf8 "txtfmt1")] (utf8 "Fabrics Command Type Specific") [], utf8 "");
     (Elem (utf8 "span") [(utf8 "class", utf8 "txtfmt1")] (utf8 " (FCTS)") [], utf8 "");
     (Elem (utf8 "span") [(utf8 "class", utf8 "txtfmt1")] (utf8 ":") [], utf8 "");
     (Elem (utf8 "span") [] (utf8 " This field is Fabrics command type specific.") [], utf8 "
                ")], utf8 "
            ")], utf8 "
        ")], utf8 "
    ")], utf8 "
")], [])].

(** /repo/tests/test_html_figures.py:229 *)
Example conf_bytes_fig94 : conf_ents doc_bytes_fig94 = Some [
  mkEntity (mkMeta None (utf8 "94_4_0") (Some (utf8 "94_4"))) (BValues [mkVField (utf8 "00b") (utf8 "NO_DATA_IS_TRANSFERRED") None; mkVField (utf8 "01b") (utf8 "DATA_IS_TRANSFERRED_FROM_THE_HOST_TO_THE_CONTROLLER") None; mkVField (utf8 "10b") (utf8 "DATA_IS_TRANSFERRED_FROM_THE_CONTROLLER_TO_THE_HOST") None; mkVField (utf8 "11b") (utf8 "RESERVED") None]);
  mkEntity (mkMeta None (utf8 "94_4") (Some (utf8 "94"))) (BStruct KBits [mkSField (utf8 "dtd") (RInt (0)%Z (1)%Z) None; mkSField (utf8 "f") (RInt (2)%Z (7)%Z) None]);
  mkEntity (mkMeta (Some (utf8 "Figure 94: Fabrics Command – Submission
                        Queue Entry Format")) (utf8 "94") None) (BStruct KBytes [mkSField (utf8 "cdw0") (RInt (0)%Z (3)%Z) (Some (utf8 "Refer to Figure 95")); mkSField (utf8 "fctype") (RInt (4)%Z (4)%Z) None; mkSField (utf8 "RESERVED") (RInt (5)%Z (23)%Z) None; mkSField (utf8 "sgl1") (RInt (24)%Z (39)%Z) None; mkSField (utf8 "fcts") (RInt (40)%Z (63)%Z) (Some (utf8 "This field is Fabrics command type specific"))])].
Proof. vm_compute. reflexivity. Qed.

Example conf_bytes_fig94_not_skipped : existsb (code_eqb T1007) (conf_codes doc_bytes_fig94) = false.
Proof. vm_compute. reflexivity. Qed.

Definition doc_values_fig101 : elem :=
 Elem (utf8 "html") [] [] [(Elem (utf8 "body") [] (utf8 "

    ") [
 (Elem (utf8 "table") [] (utf8 "
        ") [
  (Elem (utf8 "tr") [] (utf8 "
            ") [
   (Elem (utf8 "td") [(utf8 "colspan", utf8 "3")] (utf8 "
                ") [
    (Elem (utf8 "p") [] (utf8 "
                    ") [
     (Elem (utf8 "span") [] (utf8 "Figure ") [], utf8 "");
     (Elem (utf8 "span") [] (utf8 "101") [], utf8 "");
     (Elem (utf8 "span") [] (utf8 ": Status Code – Status Code Type Values") [], utf8 "
                ")], utf8 "
            ")], utf8 "
        ")], utf8 "
        ");
  (Elem (utf8 "tr") [] (utf8 "
            ") [
   (Elem (utf8 "th") [(utf8 "class", utf8 "tcell0")] (utf8 "
                ") [
    (Elem (utf8 "p") [] (utf8 "
                    ") [
     (Elem (utf8 "span") [] (utf8 "Value") [], utf8 "
                ")], utf8 "
            ")], utf8 "
            ");
   (Elem (utf8 "th") [(utf8 "class", utf8 "tcell0")] (utf8 "
                ") [
    (Elem (utf8 "p") [] (utf8 "
                    ") [
     (Elem (utf8 "span") [] (utf8 "Description") [], utf8 "
                ")], utf8 "
            ")], utf8 "
            ");
   (Elem (utf8 "th") [(utf8 "class", utf8 "tcell0")] (utf8 "
                ") [
    (Elem (utf8 "p") [] (utf8 "
                    ") [
     (Elem (utf8 "span") [] (utf8 "Reference") [], utf8 "
                ")], utf8 "
            ")], utf8 "
        ")], utf8 "
        ");
  (Elem (utf8 "tr") [] (utf8 "
            ") [
   (Elem (utf8 "td") [] (utf8 "
                ") [
    (Elem (utf8 "p") [] (utf8 "
                    ") [
     (Elem (utf8 "span") [] (utf8 "0h") [], utf8 "
                ")], utf8 "
            ")], utf8 "
            ");
   (Elem (utf8 "td") [] (utf8 "
                ") [
    (Elem (utf8 "p") [] (utf8 "
                    ") [
     (Elem (utf8 "span") [(utf8 "class", utf8 "txtfmt1")] (utf8 "Generic Command Status: ") [], utf8 "");
     (Elem (utf8 "span") [] (utf8 "Indicates that the command specified by
                        the Command and Submission Queue identifiers in the completion queue entry has completed. These
                        status values are generic across all command types, and include such conditions as success,
                        opcode not supported, and invalid field. ") [], utf8 "
                ")], utf8 "
            ")], utf8 "
            ");
   (Elem (utf8 "td") [] (utf8 "
                ") [
    (Elem (utf8 "p") [] (utf8 "
                    ") [
     (Elem (utf8 "span") [] (utf8 "4.2.3.1") [], utf8 "
                ")], utf8 "
            ")], utf8 "
        ")], utf8 "
        ");
  (Elem (utf8 "tr") [] (utf8 "
            ") [
   (Elem (utf8 "td") [] (utf8 "
                ") [
    (Elem (utf8 "p") [] (utf8 "
                    ") [
     (Elem (utf8 "span") [] (utf8 "1h") [], utf8 "
                ")], utf8 "
            ")], utf8 "
            ");
   (Elem (utf8 "td") [] (utf8 "
                ") [
    (Elem (utf8 "p") [] (utf8 "
                    ") [
     (Elem (utf8 "span") [(utf8 "class", utf8 "txtfmt1")] (utf8 "Command Specific Status: ") [], utf8 "");
     (Elem (utf8 "span") [] (utf8 "Indicates a status value that is
                        specific to a particular command opcode. These values may indicate additional processing is
                        required. Status values such as invalid firmware image or exceeded maximum number of queues is
                        reported with this type.") [], utf8 "
                ")], utf8 "
            ")], utf8 "
            ");
   (Elem (utf8 "td") [] (utf8 "
                ") [
    (Elem (utf8 "p") [] (utf8 "
                    ") [
     (Elem (utf8 "span") [] (utf8 "4.2.3.2") [], utf8 "
                ")], utf8 "
            ")], utf8 "
        ")], utf8 "
        ");
  (Elem (utf8 "tr") [] (utf8 "
            ") [
   (Elem (utf8 "td") [] (utf8 "
                ") [
    (Elem (utf8 "p") [] (utf8 "
                    ") [
     (Elem (utf8 "span") [] (utf8 "2h") [], utf8 "
                ")], utf8 "
            ")], utf8 "
            ");
   (Elem (utf8 "td") [] (utf8 "
                ") [
    (Elem (utf8 "p") [] (utf8 "
                    ") [
     (Elem (utf8 "span") [(utf8 "class", utf8 "txtfmt1")] (utf8 "Media and Data Integrity Errors:") [], utf8 "");
     (Elem (utf8 "span") [] (utf8 " Any media specific errors that
                        occur in the NVM or data integrity type errors shall be of this type.") [], utf8 "
                ")], utf8 "
            ")], utf8 "
            ");
   (Elem (utf8 "td") [] (utf8 "
                ") [
    (Elem (utf8 "p") [] (utf8 "
                    ") [
     (Elem (utf8 "span") [] (utf8 "4.2.3.3") [], utf8 "
                ")], utf8 "
            ")], utf8 "
        ")], utf8 "
        ");
  (Elem (utf8 "tr") [] (utf8 "
            ") [
   (Elem (utf8 "td") [] (utf8 "
                ") [
    (Elem (utf8 "p") [] (utf8 "
                    ") [
     (Elem (utf8 "span") [] (utf8 "3h") [], utf8 "
                ")], utf8 "
            ")], utf8 "
            ");
   (Elem (utf8 "td") [] (utf8 "
                ") [
    (Elem (utf8 "p") [] (utf8 "
                    ") [
     (Elem (utf8 "span") [(utf8 "class", utf8 "txtfmt1")] (utf8 "Path Related Status:") [], utf8 "");
     (Elem (utf8 "span") [] (utf8 " ") [], utf8 "");
     (Elem (utf8 "span") [] (utf8 "Indicates that the command
                        specified by the Command and Submission Queue identifier in the completion queue entry has
                        completed. These status values are generic across all command types. These values may indicate
                        that additional process is required and indicate a status value that is specific to:") [], utf8 "
                ")], utf8 "
                ");
    (Elem (utf8 "ol") [(utf8 "class", utf8 "ol691")] (utf8 "
                    ") [
     (Elem (utf8 "li") [] (utf8 "
                        ") [
      (Elem (utf8 "span") [] (utf8 "the connection between the host and the controller processing the command; or") [], utf8 "
                    ")], utf8 "
                    ");
     (Elem (utf8 "li") [] (utf8 "
                        ") [
      (Elem (utf8 "span") [] (utf8 "the characteristics that support Asymmetric Namespace Access Reporting (refer to section
                        ") [], utf8 "");
      (Elem (utf8 "span") [] (utf8 "8.1.1") [], utf8 "");
      (Elem (utf8 "span") [] (utf8 "), the characteristics of the relationship between the controller
                            processing the command and the specified namespace.") [], utf8 "
                    ")], utf8 "
                ")], utf8 "
            ")], utf8 "
            ");
   (Elem (utf8 "td") [] (utf8 "
                ") [
    (Elem (utf8 "p") [] (utf8 "
                    ") [
     (Elem (utf8 "span") [] (utf8 "4.2.3.4") [], utf8 "
                ")], utf8 "
            ")], utf8 "
        ")], utf8 "
        ");
  (Elem (utf8 "tr") [] (utf8 "
            ") [
   (Elem (utf8 "td") [] (utf8 "
                ") [
    (Elem (utf8 "p") [] (utf8 "
                    ") [
     (Elem (utf8 "span") [] (utf8 "4h to 6h") [], utf8 "
                ")], utf8 "
            ")], utf8 "
            ");
   (Elem (utf8 "td") [(utf8 "colspan", utf8 "2")] (utf8 "
                ") [
    (Elem (utf8 "p") [] (utf8 "
                    ") [
     (Elem (utf8 "span") [] (utf8 "Reserved") [], utf8 "
                ")], utf8 "
            ")], utf8 "
        ")], utf8 "
        ");
  (Elem (utf8 "tr") [] (utf8 "
            ") [
   (Elem (utf8 "td") [] (utf8 "
                ") [
    (Elem (utf8 "p") [] (utf8 "
                    ") [
     (Elem (utf8 "span") [] (utf8 "7h") [], utf8 "
                ")], utf8 "
            ")], utf8 "
            ");
   (Elem (utf8 "td") [(utf8 "colspan", utf8 "2")] (utf8 "
                ") [
    (Elem (utf8 "p") [] (utf8 "
                    ") [
     (Elem (utf8 "span") [] (utf8 "Vendor Specific") [], utf8 "
                ")], utf8 "
            ")], utf8 "
        ")], utf8 "
    ")], utf8 "
")], [])].

(** /repo/tests/test_html_figures.py:296 *)
Example conf_values_fig101 : conf_ents doc_values_fig101 = Some [
  mkEntity (mkMeta (Some (utf8 "Figure 101: Status Code – Status Code Type Values")) (utf8 "101") None) (BValues [mkVField (utf8 "0h") (utf8 "GENERIC_COMMAND_STATUS") None; mkVField (utf8 "1h") (utf8 "COMMAND_SPECIFIC_STATUS") None; mkVField (utf8 "2h") (utf8 "MEDIA_AND_DATA_INTEGRITY_ERRORS") None; mkVField (utf8 "3h") (utf8 "PATH_RELATED_STATUS") None; mkVField (utf8 "4h to 6h") (utf8 "RESERVED") None; mkVField (utf8 "7h") (utf8 "VENDOR_SPECIFIC") None])].
Proof. vm_compute. reflexivity. Qed.

Example conf_values_fig101_not_skipped : existsb (code_eqb T1007) (conf_codes doc_values_fig101) = false.
Proof. vm_compute. reflexivity. Qed.

Definition doc_values_fig113 : elem :=
 Elem (utf8 "html") [] [] [(Elem (utf8 "body") [] (utf8 "
") [
 (Elem (utf8 "table") [] (utf8 "
  ") [
  (Elem (utf8 "tr") [] (utf8 "
   ") [
   (Elem (utf8 "td") [(utf8 "colspan", utf8 "2")] (utf8 "
    ") [
    (Elem (utf8 "p") [] (utf8 "
     ") [
     (Elem (utf8 "span") [] (utf8 "Figure ") [], utf8 "");
     (Elem (utf8 "span") [] (utf8 "113") [], utf8 "");
     (Elem (utf8 "span") [] (utf8 ": SGL Segment") [], utf8 "
    ")], utf8 "
   ")], utf8 "
  ")], utf8 "
  ");
  (Elem (utf8 "tr") [] (utf8 "
   ") [
   (Elem (utf8 "th") [(utf8 "class", utf8 "tcell0")] (utf8 "
    ") [
    (Elem (utf8 "p") [] (utf8 "
     ") [
     (Elem (utf8 "span") [] (utf8 "Bytes") [], utf8 "
    ")], utf8 "
   ")], utf8 "
   ");
   (Elem (utf8 "th") [(utf8 "class", utf8 "tcell0")] (utf8 "
    ") [
    (Elem (utf8 "p") [] (utf8 "
     ") [
     (Elem (utf8 "span") [] (utf8 "Description") [], utf8 "
    ")], utf8 "
   ")], utf8 "
  ")], utf8 "
  ");
  (Elem (utf8 "tr") [] (utf8 "
   ") [
   (Elem (utf8 "th") [(utf8 "colspan", utf8 "2"); (utf8 "class", utf8 "tcell0")] (utf8 "
    ") [
    (Elem (utf8 "p") [] (utf8 "
     ") [
     (Elem (utf8 "span") [] (utf8 "SGL Descriptor List") [], utf8 "
    ")], utf8 "
   ")], utf8 "
  ")], utf8 "
  ");
  (Elem (utf8 "tr") [] (utf8 "
   ") [
   (Elem (utf8 "td") [] (utf8 "
    ") [
    (Elem (utf8 "p") [] (utf8 "
     ") [
     (Elem (utf8 "span") [] (utf8 "15:00") [], utf8 "
    ")], utf8 "
   ")], utf8 "
   ");
   (Elem (utf8 "td") [] (utf8 "
    ") [
    (Elem (utf8 "p") [] (utf8 "
     ") [
     (Elem (utf8 "span") [(utf8 "class", utf8 "txtfmt1")] (utf8 "SGL Descriptor 0") [], utf8 "");
     (Elem (utf8 "span") [(utf8 "class", utf8 "txtfmt1")] (utf8 ": ") [], utf8 "");
     (Elem (utf8 "span") [] (utf8 "This field is the first SGL desc") [], utf8 "");
     (Elem (utf8 "span") [] (utf8 "riptor.") [], utf8 "
    ")], utf8 "
   ")], utf8 "
  ")], utf8 "
  ");
  (Elem (utf8 "tr") [] (utf8 "
   ") [
   (Elem (utf8 "td") [] (utf8 "
    ") [
    (Elem (utf8 "p") [] (utf8 "
     ") [
     (Elem (utf8 "span") [] (utf8 "31:16") [], utf8 "
    ")], utf8 "
   ")], utf8 "
   ");
   (Elem (utf8 "td") [] (utf8 "
    ") [
    (Elem (utf8 "p") [] (utf8 "
     ") [
     (Elem (utf8 "span") [(utf8 "class", utf8 "txtfmt1")] (utf8 "SGL Descriptor 1") [], utf8 "");
     (Elem (utf8 "span") [(utf8 "class", utf8 "txtfmt1")] (utf8 ":") [], utf8 "");
     (Elem (utf8 "span") [] (utf8 " ") [], utf8 "");
     (Elem (utf8 "span") [] (utf8 "This field is the ") [], utf8 "");
     (Elem (utf8 "span") [] (utf8 "second") [], utf8 "");
     (Elem (utf8 "span") [] (utf8 " SGL descriptor.") [], utf8 "
    ")], utf8 "
   ")], utf8 "
  ")], utf8 "
  ");
  (Elem (utf8 "tr") [] (utf8 "
   ") [
   (Elem (utf8 "td") [] (utf8 "
    ") [
    (Elem (utf8 "p") [] (utf8 "
     ") [
     (Elem (utf8 "span") [] (utf8 "…") [], utf8 "
    ")], utf8 "
   ")], utf8 "
   ");
   (Elem (utf8 "td") [] (utf8 "
    ") [
    (Elem (utf8 "p") [] (utf8 "
     ") [
     (Elem (utf8 "span") [] (utf8 "…") [], utf8 "
    ")], utf8 "
   ")], utf8 "
  ")], utf8 "
  ");
  (Elem (utf8 "tr") [] (utf8 "
   ") [
   (Elem (utf8 "td") [] (utf8 "
    ") [
    (Elem (utf8 "p") [] (utf8 "
     ") [
     (Elem (utf8 "span") [] (utf8 "((n*16)+15):(n*16)") [], utf8 "
    ")], utf8 "
   ")], utf8 "
   ");
   (Elem (utf8 "td") [] (utf8 "
    ") [
    (Elem (utf8 "p") [] (utf8 "
     ") [
     (Elem (utf8 "span") [(utf8 "class", utf8 "txtfmt1")] (utf8 "SGL Descriptor n") [], utf8 "");
     (Elem (utf8 "span") [(utf8 "class", utf8 "txtfmt1")] (utf8 ":") [], utf8 "");
     (Elem (utf8 "span") [] (utf8 " ") [], utf8 "");
     (Elem (utf8 "span") [] (utf8 "This field is the ") [], utf8 "");
     (Elem (utf8 "span") [] (utf8 "last") [], utf8 "");
     (Elem (utf8 "span") [] (utf8 " SGL descriptor.") [], utf8 "
    ")], utf8 "
   ")], utf8 "
  ")], utf8 "
 ")], utf8 "
")], [])].

(** /repo/tests/test_html_figures.py:330 *)
Example conf_values_fig113 : conf_ents doc_values_fig113 = Some [
  mkEntity (mkMeta (Some (utf8 "Figure 113: SGL Segment")) (utf8 "113") None) (BStruct KBytes [mkSField (utf8 "sd0") (RDyn (utf8 "00") (utf8 "15")) (Some (utf8 "This field is the first SGL descriptor")); mkSField (utf8 "sd1") (RDyn (utf8 "16") (utf8 "31")) (Some (utf8 "This field is the second SGL descriptor")); mkSField (utf8 "sdn") (RDyn (utf8 "(n*16)") (utf8 "((n*16)+15)")) (Some (utf8 "This field is the last SGL descriptor"))])].
Proof. vm_compute. reflexivity. Qed.

Example conf_values_fig113_lint_free : conf_codes doc_values_fig113 = [].
Proof. vm_compute. reflexivity. Qed.

Definition doc_values_fig213 : elem :=
 Elem (utf8 "html") [] [] [(Elem (utf8 "body") [] (utf8 "

  ") [
 (Elem (utf8 "table") [] (utf8 "
    ") [
  (Elem (utf8 "tr") [] (utf8 "
      ") [
   (Elem (utf8 "td") [(utf8 "colspan", utf8 "2")] (utf8 "
        ") [
    (Elem (utf8 "p") [] (utf8 "
          ") [
     (Elem (utf8 "span") [] (utf8 "Figure ") [], utf8 "");
     (Elem (utf8 "span") [] (utf8 "213") [], utf8 "");
     (Elem (utf8 "span") [] (utf8 ": ") [], utf8 "");
     (Elem (utf8 "span") [] (utf8 "Telemetry Host-Initiated") [], utf8 "");
     (Elem (utf8 "span") [] (utf8 " Log
            Specific") [], utf8 "");
     (Elem (utf8 "span") [] (utf8 " Parameter") [], utf8 "");
     (Elem (utf8 "span") [] (utf8 " Field") [], utf8 "
        ")], utf8 "
      ")], utf8 "
    ")], utf8 "
    ");
  (Elem (utf8 "tr") [] (utf8 "
      ") [
   (Elem (utf8 "th") [(utf8 "class", utf8 "tcell0")] (utf8 "
        ") [
    (Elem (utf8 "p") [] (utf8 "
          ") [
     (Elem (utf8 "span") [] (utf8 "Bit") [], utf8 "");
     (Elem (utf8 "span") [] (utf8 "s") [], utf8 "
        ")], utf8 "
      ")], utf8 "
      ");
   (Elem (utf8 "th") [(utf8 "class", utf8 "tcell0")] (utf8 "
        ") [
    (Elem (utf8 "p") [] (utf8 "
          ") [
     (Elem (utf8 "span") [] (utf8 "Description") [], utf8 "
        ")], utf8 "
      ")], utf8 "
    ")], utf8 "
    ");
  (Elem (utf8 "tr") [] (utf8 "
      ") [
   (Elem (utf8 "td") [] (utf8 "
        ") [
    (Elem (utf8 "p") [] (utf8 "
          ") [
     (Elem (utf8 "span") [] (utf8 "1") [], utf8 "");
     (Elem (utf8 "span") [] (utf8 "4") [], utf8 "");
     (Elem (utf8 "span") [] (utf8 ":") [], utf8 "");
     (Elem (utf8 "span") [] (utf8 "12") [], utf8 "
        ")], utf8 "
      ")], utf8 "
      ");
   (Elem (utf8 "td") [] (utf8 "
        ") [
    (Elem (utf8 "p") [] (utf8 "
          ") [
     (Elem (utf8 "span") [] (utf8 "Reserved") [], utf8 "
        ")], utf8 "
      ")], utf8 "
    ")], utf8 "
    ");
  (Elem (utf8 "tr") [] (utf8 "
      ") [
   (Elem (utf8 "td") [] (utf8 "
        ") [
    (Elem (utf8 "p") [] (utf8 "
          ") [
     (Elem (utf8 "span") [] (utf8 "11:09") [], utf8 "
        ")], utf8 "
      ")], utf8 "
      ");
   (Elem (utf8 "td") [] (utf8 "
        ") [
    (Elem (utf8 "p") [] (utf8 "
          ") [
     (Elem (utf8 "span") [(utf8 "class", utf8 "txtfmt1")] (utf8 "Maximum Created Data Area (MCDA):") [], utf8 "");
     (Elem (utf8 "span") [] (utf8 " If the MCDAS bit is set to ‘1’ in the LID
            Specific ") [], utf8 "");
     (Elem (utf8 "span") [] (utf8 "Parameter field ") [], utf8 "");
     (Elem (utf8 "span") [] (utf8 "(refer to ") [], utf8 "");
     (Elem (utf8 "span") [] (utf8 "Figure
          ") [], utf8 "");
     (Elem (utf8 "span") [] (utf8 "215") [], utf8 "");
     (Elem (utf8 "span") [] (utf8 ") and the Create Telemetry Host-Initiated Data bit is set to ‘1’, then this field
            specifies the data areas the host is requesting to be created in the log page. Data areas not requested
            shall not be created.") [], utf8 "
        ")], utf8 "
        ");
    (Elem (utf8 "table") [] (utf8 "
          ") [
     (Elem (utf8 "tr") [] (utf8 "
            ") [
      (Elem (utf8 "th") [(utf8 "class", utf8 "tcell2")] (utf8 "
              ") [
       (Elem (utf8 "p") [] (utf8 "
                ") [
        (Elem (utf8 "span") [] (utf8 "Values") [], utf8 "
              ")], utf8 "
            ")], utf8 "
            ");
      (Elem (utf8 "th") [(utf8 "class", utf8 "tcell2")] (utf8 "
              ") [
       (Elem (utf8 "p") [] (utf8 "
                ") [
        (Elem (utf8 "span") [] (utf8 "Description") [], utf8 "
              ")], utf8 "
            ")], utf8 "
          ")], utf8 "
          ");
     (Elem (utf8 "tr") [] (utf8 "
            ") [
      (Elem (utf8 "td") [] (utf8 "
              ") [
       (Elem (utf8 "p") [] (utf8 "
                ") [
        (Elem (utf8 "span") [] (utf8 "000b") [], utf8 "
              ")], utf8 "
            ")], utf8 "
            ");
      (Elem (utf8 "td") [] (utf8 "
              ") [
       (Elem (utf8 "p") [] (utf8 "
                ") [
        (Elem (utf8 "span") [] (utf8 "The controller determines the data areas to be created in the log page.") [], utf8 "
              ")], utf8 "
            ")], utf8 "
          ")], utf8 "
          ");
     (Elem (utf8 "tr") [] (utf8 "
            ") [
      (Elem (utf8 "td") [] (utf8 "
              ") [
       (Elem (utf8 "p") [] (utf8 "
                ") [
        (Elem (utf8 "span") [] (utf8 "001b") [], utf8 "
              ")], utf8 "
            ")], utf8 "
            ");
      (Elem (utf8 "td") [] (utf8 "
              ") [
       (Elem (utf8 "p") [] (utf8 "
                ") [
        (Elem (utf8 "span") [] (utf8 "Data Area 1") [], utf8 "
              ")], utf8 "
            ")], utf8 "
          ")], utf8 "
          ");
     (Elem (utf8 "tr") [] (utf8 "
            ") [
      (Elem (utf8 "td") [] (utf8 "
              ") [
       (Elem (utf8 "p") [] (utf8 "
                ") [
        (Elem (utf8 "span") [] (utf8 "010b") [], utf8 "
              ")], utf8 "
            ")], utf8 "
            ");
      (Elem (utf8 "td") [] (utf8 "
              ") [
       (Elem (utf8 "p") [] (utf8 "
                ") [
        (Elem (utf8 "span") [] (utf8 "Data Area 1 through Data Area 2") [], utf8 "
              ")], utf8 "
            ")], utf8 "
          ")], utf8 "
          ");
     (Elem (utf8 "tr") [] (utf8 "
            ") [
      (Elem (utf8 "td") [] (utf8 "
              ") [
       (Elem (utf8 "p") [] (utf8 "
                ") [
        (Elem (utf8 "span") [] (utf8 "011b") [], utf8 "
              ")], utf8 "
            ")], utf8 "
            ");
      (Elem (utf8 "td") [] (utf8 "
              ") [
       (Elem (utf8 "p") [] (utf8 "
                ") [
        (Elem (utf8 "span") [] (utf8 "Data Area 1 through Data Area 3") [], utf8 "
              ")], utf8 "
            ")], utf8 "
          ")], utf8 "
          ");
     (Elem (utf8 "tr") [] (utf8 "
            ") [
      (Elem (utf8 "td") [] (utf8 "
              ") [
       (Elem (utf8 "p") [] (utf8 "
                ") [
        (Elem (utf8 "span") [] (utf8 "100b") [], utf8 "
              ")], utf8 "
            ")], utf8 "
            ");
      (Elem (utf8 "td") [] (utf8 "
              ") [
       (Elem (utf8 "p") [] (utf8 "
                ") [
        (Elem (utf8 "span") [] (utf8 "Data Area 1 through Data Area 4") [], utf8 "
              ")], utf8 "
            ")], utf8 "
          ")], utf8 "
          ");
     (Elem (utf8 "tr") [] (utf8 "
            ") [
      (Elem (utf8 "td") [] (utf8 "
              ") [
       (Elem (utf8 "p") [] (utf8 "
                ") [
        (Elem (utf8 "span") [] (utf8 "101") [], utf8 "");
        (Elem (utf8 "span") [] (utf8 "b to") [], utf8 "");
        (Elem (utf8 "span") [] (utf8 " ") [], utf8 "");
        (Elem (utf8 "span") [] (utf8 "1") [], utf8 "");
        (Elem (utf8 "span") [] (utf8 "1") [], utf8 "");
        (Elem (utf8 "span") [] (utf8 "1b") [], utf8 "
              ")], utf8 "
            ")], utf8 "
            ");
      (Elem (utf8 "td") [] (utf8 "
              ") [
       (Elem (utf8 "p") [] (utf8 "
                ") [
        (Elem (utf8 "span") [] (utf8 "Reserved") [], utf8 "
              ")], utf8 "
            ")], utf8 "
          ")], utf8 "
        ")], utf8 "
        ");
    (Elem (utf8 "p") [] (utf8 "
          ") [
     (Elem (utf8 "span") [] (utf8 "If the MCDAS bit is cleared to ‘0’ or the Create Telemetry Host-Initiated Data bit is cleared to ‘0’,
            then this field ") [], utf8 "");
     (Elem (utf8 "span") [] (utf8 "shall be ") [], utf8 "");
     (Elem (utf8 "span") [] (utf8 "ignored") [], utf8 "");
     (Elem (utf8 "span") [] (utf8 " by the
            controller") [], utf8 "");
     (Elem (utf8 "span") [] (utf8 ".") [], utf8 "
        ")], utf8 "
      ")], utf8 "
    ")], utf8 "
    ");
  (Elem (utf8 "tr") [] (utf8 "
      ") [
   (Elem (utf8 "td") [] (utf8 "
        ") [
    (Elem (utf8 "p") [] (utf8 "
          ") [
     (Elem (utf8 "span") [] (utf8 "08") [], utf8 "
        ")], utf8 "
      ")], utf8 "
      ");
   (Elem (utf8 "td") [] (utf8 "
        ") [
    (Elem (utf8 "p") [] (utf8 "
          ") [
     (Elem (utf8 "span") [(utf8 "class", utf8 "txtfmt1")] (utf8 "Create Telemetry Host-Initiated Data") [], utf8 "");
     (Elem (utf8 "span") [(utf8 "class", utf8 "txtfmt1")] (utf8 " (CTHID)") [], utf8 "");
     (Elem (utf8 "span") [(utf8 "class", utf8 "txtfmt1")] (utf8 ":") [], utf8 "");
     (Elem (utf8 "span") [] (utf8 " If ") [], utf8 "");
     (Elem (utf8 "span") [] (utf8 "this bit is ") [], utf8 "");
     (Elem (utf8 "span") [] (utf8 "set to
            ‘1’") [], utf8 "");
     (Elem (utf8 "span") [] (utf8 ",") [], utf8 "");
     (Elem (utf8 "span") [] (utf8 " then the controller shall capture the Telemetry Host-Initiated Data
            representing the internal state of the controller at the time the associated Get Log Page command is
            processed. If ") [], utf8 "");
     (Elem (utf8 "span") [] (utf8 "this bit is ") [], utf8 "");
     (Elem (utf8 "span") [] (utf8 "cleared to ‘0’") [], utf8 "");
     (Elem (utf8 "span") [] (utf8 ",") [], utf8 "");
     (Elem (utf8 "span") [] (utf8 " then the
            controller shall not update the Telemetry Host") [], utf8 "");
     (Elem (utf8 "span") [] (utf8 "-") [], utf8 "");
     (Elem (utf8 "span") [] (utf8 "Initiated Data. The Host-Initiated
            Data shall not change until the controller processes") [], utf8 "");
     (Elem (utf8 "span") [] (utf8 ":") [], utf8 "
        ")], utf8 "
        ");
    (Elem (utf8 "ol") [(utf8 "class", utf8 "ol271")] (utf8 "
          ") [
     (Elem (utf8 "li") [] (utf8 "
            ") [
      (Elem (utf8 "span") [] (utf8 "a subsequent Telemetry Host-Initiated Log with this bit set to ‘1’") [], utf8 "");
      (Elem (utf8 "span") [] (utf8 ";") [], utf8 "
          ")], utf8 "
          ");
     (Elem (utf8 "li") [] (utf8 "
            ") [
      (Elem (utf8 "span") [] (utf8 "a Firmware Commit command") [], utf8 "");
      (Elem (utf8 "span") [] (utf8 ";") [], utf8 "");
      (Elem (utf8 "span") [] (utf8 " or") [], utf8 "
          ")], utf8 "
          ");
     (Elem (utf8 "li") [] (utf8 "
            ") [
      (Elem (utf8 "span") [] (utf8 "a power on reset.") [], utf8 "
          ")], utf8 "
        ")], utf8 "
      ")], utf8 "
    ")], utf8 "
  ")], utf8 "

")], [])].

(** /repo/tests/test_html_figures.py:371 *)
Example conf_values_fig213 : conf_ents doc_values_fig213 = Some [
  mkEntity (mkMeta None (utf8 "213_9") (Some (utf8 "213"))) (BValues [mkVField (utf8 "000b") (utf8 "THE_CONTROLLER_DETERMINES_THE_DATA_AREAS_TO_BE_CREATED_IN_THE_LOG_PAGE") None; mkVField (utf8 "001b") (utf8 "DATA_AREA_1") None; mkVField (utf8 "010b") (utf8 "DATA_AREA_1_THROUGH_DATA_AREA_2") None; mkVField (utf8 "011b") (utf8 "DATA_AREA_1_THROUGH_DATA_AREA_3") None; mkVField (utf8 "100b") (utf8 "DATA_AREA_1_THROUGH_DATA_AREA_4") None; mkVField (utf8 "101b to 111b") (utf8 "RESERVED") None]);
  mkEntity (mkMeta (Some (utf8 "Figure 213: Telemetry Host-Initiated Log
            Specific Parameter Field")) (utf8 "213") None) (BStruct KBits [mkSField (utf8 "cthid") (RInt (8)%Z (8)%Z) None; mkSField (utf8 "mcda") (RInt (9)%Z (11)%Z) None; mkSField (utf8 "RESERVED") (RInt (12)%Z (14)%Z) None])].
Proof. vm_compute. reflexivity. Qed.

Example conf_values_fig213_lint_free : conf_codes doc_values_fig213 = [].
Proof. vm_compute. reflexivity. Qed.

Definition doc_bytes_fig559 : elem :=
 Elem (utf8 "html") [] [] [(Elem (utf8 "body") [] (utf8 "

    ") [
 (Elem (utf8 "table") [] (utf8 "
        ") [
  (Elem (utf8 "tr") [] (utf8 "
            ") [
   (Elem (utf8 "td") [(utf8 "colspan", utf8 "2")] (utf8 "
                ") [
    (Elem (utf8 "p") [] (utf8 "
                    ") [
     (Elem (utf8 "span") [] (utf8 "Figure ") [], utf8 "");
     (Elem (utf8 "span") [] (utf8 "559") [], utf8 "");
     (Elem (utf8 "span") [] (utf8 ": I/O Management Receive – Command Dword 10") [], utf8 "
                ")], utf8 "
            ")], utf8 "
        ")], utf8 "
        ");
  (Elem (utf8 "tr") [] (utf8 "
            ") [
   (Elem (utf8 "th") [(utf8 "class", utf8 "tcell0")] (utf8 "
                ") [
    (Elem (utf8 "p") [] (utf8 "
                    ") [
     (Elem (utf8 "span") [] (utf8 "Bits") [], utf8 "
                ")], utf8 "
            ")], utf8 "
            ");
   (Elem (utf8 "th") [(utf8 "class", utf8 "tcell0")] (utf8 "
                ") [
    (Elem (utf8 "p") [] (utf8 "
                    ") [
     (Elem (utf8 "span") [] (utf8 "Description") [], utf8 "
                ")], utf8 "
            ")], utf8 "
        ")], utf8 "
        ");
  (Elem (utf8 "tr") [] (utf8 "
            ") [
   (Elem (utf8 "td") [] (utf8 "
                ") [
    (Elem (utf8 "p") [] (utf8 "
                    ") [
     (Elem (utf8 "span") [] (utf8 "31:16") [], utf8 "
                ")], utf8 "
            ")], utf8 "
            ");
   (Elem (utf8 "td") [] (utf8 "
                ") [
    (Elem (utf8 "p") [] (utf8 "
                    ") [
     (Elem (utf8 "span") [(utf8 "class", utf8 "txtfmt1")] (utf8 "Management Operation Specific (MOS):") [], utf8 "");
     (Elem (utf8 "span") [] (utf8 " This definition of this
                        field is specific the value of the MO field. If this field is not defined for the management
                        operation specified by the MO field, then this field is reserved.") [], utf8 "
                ")], utf8 "
            ")], utf8 "
        ")], utf8 "
        ");
  (Elem (utf8 "tr") [] (utf8 "
            ") [
   (Elem (utf8 "td") [] (utf8 "
                ") [
    (Elem (utf8 "p") [] (utf8 "
                    ") [
     (Elem (utf8 "span") [] (utf8 "15:08") [], utf8 "
                ")], utf8 "
            ")], utf8 "
            ");
   (Elem (utf8 "td") [] (utf8 "
                ") [
    (Elem (utf8 "p") [] (utf8 "
                    ") [
     (Elem (utf8 "span") [] (utf8 "Reserved") [], utf8 "
                ")], utf8 "
            ")], utf8 "
        ")], utf8 "
        ");
  (Elem (utf8 "tr") [] (utf8 "
            ") [
   (Elem (utf8 "td") [] (utf8 "
                ") [
    (Elem (utf8 "p") [] (utf8 "
                    ") [
     (Elem (utf8 "span") [] (utf8 "07:00") [], utf8 "
                ")], utf8 "
            ")], utf8 "
            ");
   (Elem (utf8 "td") [] (utf8 "
                ") [
    (Elem (utf8 "p") [] (utf8 "
                    ") [
     (Elem (utf8 "span") [(utf8 "class", utf8 "txtfmt1")] (utf8 "Management Operation (MO): ") [], utf8 "");
     (Elem (utf8 "span") [] (utf8 "This field specifies the management
                        operation to perform.") [], utf8 "
                ")], utf8 "
                ");
    (Elem (utf8 "table") [] (utf8 "
                    ") [
     (Elem (utf8 "tr") [] (utf8 "
                        ") [
      (Elem (utf8 "th") [(utf8 "class", utf8 "tcell1")] (utf8 "
                            ") [
       (Elem (utf8 "p") [] (utf8 "
                                ") [
        (Elem (utf8 "span") [] (utf8 "Value") [], utf8 "
                            ")], utf8 "
                        ")], utf8 "
                        ");
      (Elem (utf8 "th") [(utf8 "class", utf8 "tcell1")] (utf8 "
                            ") [
       (Elem (utf8 "p") [] (utf8 "
                                ") [
        (Elem (utf8 "span") [] (utf8 "Definition") [], utf8 "
                            ")], utf8 "
                        ")], utf8 "
                    ")], utf8 "
                    ");
     (Elem (utf8 "tr") [] (utf8 "
                        ") [
      (Elem (utf8 "td") [] (utf8 "
                            ") [
       (Elem (utf8 "p") [] (utf8 "
                                ") [
        (Elem (utf8 "span") [] (utf8 "00h") [], utf8 "
                            ")], utf8 "
                        ")], utf8 "
                        ");
      (Elem (utf8 "td") [] (utf8 "
                            ") [
       (Elem (utf8 "p") [] (utf8 "
                                ") [
        (Elem (utf8 "span") [] (utf8 "No action") [], utf8 "
                            ")], utf8 "
                        ")], utf8 "
                    ")], utf8 "
                    ");
     (Elem (utf8 "tr") [] (utf8 "
                        ") [
      (Elem (utf8 "td") [] (utf8 "
                            ") [
       (Elem (utf8 "p") [] (utf8 "
                                ") [
        (Elem (utf8 "span") [] (utf8 "01h") [], utf8 "
                            ")], utf8 "
                        ")], utf8 "
                        ");
      (Elem (utf8 "td") [] (utf8 "
                            ") [
       (Elem (utf8 "p") [] (utf8 "
                                ") [
        (Elem (utf8 "span") [(utf8 "class", utf8 "txtfmt1")] (utf8 "Reclaim Unit Handle Status: ") [], utf8 "");
        (Elem (utf8 "span") [] (utf8 "For each Placement Handle
                                    of the namespace, the controller shall return a Reclaim Unit") [], utf8 "");
        (Elem (utf8 "span") [] (utf8 "
                                ") [], utf8 "");
        (Elem (utf8 "span") [] (utf8 "Handle Status Descriptor for each Reclaim Group") [], utf8 "");
        (Elem (utf8 "span") [] (utf8 ".") [], utf8 "
                            ")], utf8 "
                        ")], utf8 "
                    ")], utf8 "
                    ");
     (Elem (utf8 "tr") [] (utf8 "
                        ") [
      (Elem (utf8 "td") [] (utf8 "
                            ") [
       (Elem (utf8 "p") [] (utf8 "
                                ") [
        (Elem (utf8 "span") [] (utf8 "FFh") [], utf8 "
                            ")], utf8 "
                        ")], utf8 "
                        ");
      (Elem (utf8 "td") [] (utf8 "
                            ") [
       (Elem (utf8 "p") [] (utf8 "
                                ") [
        (Elem (utf8 "span") [] (utf8 "Vendor specific") [], utf8 "
                            ")], utf8 "
                        ")], utf8 "
                    ")], utf8 "
                    ");
     (Elem (utf8 "tr") [] (utf8 "
                        ") [
      (Elem (utf8 "td") [] (utf8 "
                            ") [
       (Elem (utf8 "p") [] (utf8 "
                                ") [
        (Elem (utf8 "span") [] (utf8 "All others") [], utf8 "
                            ")], utf8 "
                        ")], utf8 "
                        ");
      (Elem (utf8 "td") [] (utf8 "
                            ") [
       (Elem (utf8 "p") [] (utf8 "
                                ") [
        (Elem (utf8 "span") [] (utf8 "Reserved") [], utf8 "
                            ")], utf8 "
                        ")], utf8 "
                    ")], utf8 "
                ")], utf8 "
            ")], utf8 "
        ")], utf8 "
    ")], utf8 "
")], [])].

(** /repo/tests/test_html_figures.py:461 *)
Example conf_bytes_fig559 : conf_ents doc_bytes_fig559 = Some [
  mkEntity (mkMeta None (utf8 "559_0") (Some (utf8 "559"))) (BValues [mkVField (utf8 "00h") (utf8 "NO_ACTION") None; mkVField (utf8 "01h") (utf8 "RECLAIM_UNIT_HANDLE_STATUS") None; mkVField (utf8 "ffh") (utf8 "VENDOR_SPECIFIC") None; mkVField (utf8 "all others") (utf8 "RESERVED") None]);
  mkEntity (mkMeta (Some (utf8 "Figure 559: I/O Management Receive – Command Dword 10")) (utf8 "559") None) (BStruct KBits [mkSField (utf8 "mo") (RInt (0)%Z (7)%Z) None; mkSField (utf8 "RESERVED") (RInt (8)%Z (15)%Z) None; mkSField (utf8 "mos") (RInt (16)%Z (31)%Z) None])].
Proof. vm_compute. reflexivity. Qed.

Example conf_bytes_fig559_not_skipped : existsb (code_eqb T1007) (conf_codes doc_bytes_fig559) = false.
Proof. vm_compute. reflexivity. Qed.

Definition doc_simple_dynamic_table : elem :=
 Elem (utf8 "html") [] [] [(Elem (utf8 "body") [] (utf8 "
    ") [
 (Elem (utf8 "table") [] (utf8 "
        ") [
  (Elem (utf8 "tr") [] (utf8 "
            ") [
   (Elem (utf8 "td") [(utf8 "colspan", utf8 "2")] (utf8 "
                ") [
    (Elem (utf8 "p") [] (utf8 "
                    ") [
     (Elem (utf8 "span") [] (utf8 "Figure ") [], utf8 "");
     (Elem (utf8 "span") [] (utf8 "1") [], utf8 "");
     (Elem (utf8 "span") [] (utf8 ": Test") [], utf8 "
                ")], utf8 "
            ")], utf8 "
        ")], utf8 "
        ");
  (Elem (utf8 "tr") [] (utf8 "
            ") [
   (Elem (utf8 "th") [(utf8 "class", utf8 "tcell0")] (utf8 "
                ") [
    (Elem (utf8 "p") [] (utf8 "
                    ") [
     (Elem (utf8 "span") [] (utf8 "Bytes") [], utf8 "
                ")], utf8 "
            ")], utf8 "
            ");
   (Elem (utf8 "th") [(utf8 "class", utf8 "tcell0")] (utf8 "
                ") [
    (Elem (utf8 "p") [] (utf8 "
                    ") [
     (Elem (utf8 "span") [] (utf8 "Description") [], utf8 "
                ")], utf8 "
            ")], utf8 "
        ")], utf8 "
        ");
  (Elem (utf8 "tr") [] (utf8 "
            ") [
   (Elem (utf8 "td") [] (utf8 "
                ") [
    (Elem (utf8 "p") [] (utf8 "
                    ") [
     (Elem (utf8 "span") [] (utf8 "07:00") [], utf8 "
                ")], utf8 "
            ")], utf8 "
            ");
   (Elem (utf8 "td") [] (utf8 "
                ") [
    (Elem (utf8 "p") [] (utf8 "
                    ") [
     (Elem (utf8 "span") [(utf8 "class", utf8 "txtfmt1")] (utf8 "Test Counter (TESTCTR):") [], utf8 "");
     (Elem (utf8 "span") [] (utf8 " This field indicates a test counter.") [], utf8 "
                ")], utf8 "
            ")], utf8 "
        ")], utf8 "
        ");
  (Elem (utf8 "tr") [] (utf8 "
            ") [
   (Elem (utf8 "th") [(utf8 "colspan", utf8 "2")] (utf8 "
                ") [
    (Elem (utf8 "p") [] (utf8 "
                    ") [
     (Elem (utf8 "span") [(utf8 "class", utf8 "txtfmt1")] (utf8 "Tests List") [], utf8 "
                ")], utf8 "
            ")], utf8 "
        ")], utf8 "
        ");
  (Elem (utf8 "tr") [] (utf8 "
            ") [
   (Elem (utf8 "td") [] (utf8 "
                ") [
    (Elem (utf8 "p") [] (utf8 "
                    ") [
     (Elem (utf8 "span") [] (utf8 "583:8") [], utf8 "
                ")], utf8 "
            ")], utf8 "
            ");
   (Elem (utf8 "td") [] (utf8 "
                ") [
    (Elem (utf8 "p") [] (utf8 "
                    ") [
     (Elem (utf8 "span") [(utf8 "class", utf8 "txtfmt1")] (utf8 "Test Entry 1:") [], utf8 "");
     (Elem (utf8 "span") [] (utf8 " The first Test
                        Entry data structure") [], utf8 "
                ")], utf8 "
            ")], utf8 "
        ")], utf8 "
        ");
  (Elem (utf8 "tr") [] (utf8 "
            ") [
   (Elem (utf8 "td") [] (utf8 "
                ") [
    (Elem (utf8 "p") [] (utf8 "
                    ") [
     (Elem (utf8 "span") [] (utf8 "1159:584") [], utf8 "
                ")], utf8 "
            ")], utf8 "
            ");
   (Elem (utf8 "td") [] (utf8 "
                ") [
    (Elem (utf8 "p") [] (utf8 "
                    ") [
     (Elem (utf8 "span") [(utf8 "class", utf8 "txtfmt1")] (utf8 "Test Entry 2: ") [], utf8 "");
     (Elem (utf8 "span") [] (utf8 "If any. ") [], utf8 "
                ")], utf8 "
            ")], utf8 "
        ")], utf8 "
        ");
  (Elem (utf8 "tr") [] (utf8 "
            ") [
   (Elem (utf8 "td") [] (utf8 "
                ") [
    (Elem (utf8 "p") [] (utf8 "
                    ") [
     (Elem (utf8 "span") [] (utf8 "…") [], utf8 "
                ")], utf8 "
            ")], utf8 "
            ");
   (Elem (utf8 "td") [] (utf8 "
                ") [
    (Elem (utf8 "p") [] (utf8 "
                    ") [
     (Elem (utf8 "span") [] (utf8 "…") [], utf8 "
                ")], utf8 "
            ")], utf8 "
        ")], utf8 "
        ");
  (Elem (utf8 "tr") [] (utf8 "
            ") [
   (Elem (utf8 "td") [] (utf8 "
                ") [
    (Elem (utf8 "p") [] (utf8 "
                    ") [
     (Elem (utf8 "span") [] (utf8 "576*") [], utf8 "");
     (Elem (utf8 "span") [] (utf8 "TESTCTR") [], utf8 "");
     (Elem (utf8 "span") [] (utf8 "+7:") [], utf8 "");
     (Elem (utf8 "span") [] (utf8 "
                    ") [], utf8 "");
     (Elem (utf8 "span") [] (utf8 "576*(") [], utf8 "");
     (Elem (utf8 "span") [] (utf8 "TESTCTR") [], utf8 "");
     (Elem (utf8 "span") [] (utf8 "-1)+8") [], utf8 "
                ")], utf8 "
            ")], utf8 "
            ");
   (Elem (utf8 "td") [] (utf8 "
                ") [
    (Elem (utf8 "p") [] (utf8 "
                    ") [
     (Elem (utf8 "span") [(utf8 "class", utf8 "txtfmt1")] (utf8 "Test Entry ") [], utf8 "");
     (Elem (utf8 "span") [(utf8 "class", utf8 "txtfmt1")] (utf8 "TESTCTR") [], utf8 "");
     (Elem (utf8 "span") [(utf8 "class", utf8 "txtfmt1")] (utf8 ":") [], utf8 "");
     (Elem (utf8 "span") [] (utf8 " If any. ") [], utf8 "
                ")], utf8 "
            ")], utf8 "
        ")], utf8 "
    ")], utf8 "
")], [])].

(** /repo/tests/test_dynamic_tables.py:13 *)
Example conf_simple_dynamic_table : conf_ents doc_simple_dynamic_table = Some [
  mkEntity (mkMeta (Some (utf8 "Figure 1: Test")) (utf8 "1") None) (BStruct KBytes [mkSField (utf8 "testctr") (RInt (0)%Z (7)%Z) (Some (utf8 "This field indicates a test counter")); mkSField (utf8 "te1") (RDyn (utf8 "8") (utf8 "583")) (Some (utf8 "The first Test
                        Entry data structure")); mkSField (utf8 "te2") (RDyn (utf8 "584") (utf8 "1159")) (Some (utf8 "If any")); mkSField (utf8 "tet") (RDyn (utf8 "576*(TESTCTR-1)+8") (utf8 "576*TESTCTR+7")) (Some (utf8 "If any"))])].
Proof. vm_compute. reflexivity. Qed.

Example conf_simple_dynamic_table_lint_free : conf_codes doc_simple_dynamic_table = [].
Proof. vm_compute. reflexivity. Qed.

Definition doc_basic_ellipsis_single_column : elem :=
 Elem (utf8 "html") [] [] [(Elem (utf8 "body") [] (utf8 "") [
 (Elem (utf8 "table") [] (utf8 "
") [
  (Elem (utf8 "tr") [] (utf8 "") [
   (Elem (utf8 "td") [(utf8 "colspan", utf8 "2")] (utf8 "") [
    (Elem (utf8 "p") [] (utf8 "") [
     (Elem (utf8 "span") [] (utf8 "Figure ") [], utf8 "");
     (Elem (utf8 "span") [] (utf8 "0") [], utf8 "");
     (Elem (utf8 "span") [] (utf8 ": Test") [], utf8 "")], utf8 "")], utf8 "")], utf8 "");
  (Elem (utf8 "tr") [] (utf8 "
") [
   (Elem (utf8 "th") [] (utf8 "") [
    (Elem (utf8 "p") [] (utf8 "
") [
     (Elem (utf8 "span") [] (utf8 "Value") [], utf8 "")], utf8 "")], utf8 "
");
   (Elem (utf8 "th") [] (utf8 "") [
    (Elem (utf8 "p") [] (utf8 "
") [
     (Elem (utf8 "span") [] (utf8 "Description") [], utf8 "")], utf8 "")], utf8 "
")], utf8 "
");
  (Elem (utf8 "tr") [] (utf8 "
") [
   (Elem (utf8 "td") [] (utf8 "") [
    (Elem (utf8 "p") [] (utf8 "
") [
     (Elem (utf8 "span") [] (utf8 "00b") [], utf8 "")], utf8 "")], utf8 "
");
   (Elem (utf8 "td") [] (utf8 "") [
    (Elem (utf8 "p") [] (utf8 "
") [
     (Elem (utf8 "span") [] (utf8 "VALUE1") [], utf8 "")], utf8 "")], utf8 "
")], utf8 "
");
  (Elem (utf8 "tr") [] (utf8 "
") [
   (Elem (utf8 "td") [] (utf8 "") [
    (Elem (utf8 "p") [] (utf8 "
") [
     (Elem (utf8 "span") [] (utf8 "…") [], utf8 "")], utf8 "")], utf8 "
")], utf8 "
");
  (Elem (utf8 "tr") [] (utf8 "
") [
   (Elem (utf8 "td") [] (utf8 "") [
    (Elem (utf8 "p") [] (utf8 "
") [
     (Elem (utf8 "span") [] (utf8 "01b") [], utf8 "")], utf8 "")], utf8 "
");
   (Elem (utf8 "td") [] (utf8 "") [
    (Elem (utf8 "p") [] (utf8 "
") [
     (Elem (utf8 "span") [] (utf8 "VALUE2") [], utf8 "")], utf8 "")], utf8 "
")], utf8 "
")], utf8 "")], [])].

(** /repo/tests/test_ellipsis.py:13 *)
Example conf_basic_ellipsis_single_column : conf_ents doc_basic_ellipsis_single_column = Some [
  mkEntity (mkMeta (Some (utf8 "Figure 0: Test")) (utf8 "0") None) (BValues [mkVField (utf8 "00b") (utf8 "VALUE1") None; mkVField (utf8 "…") (utf8 "…") None; mkVField (utf8 "01b") (utf8 "VALUE2") None])].
Proof. vm_compute. reflexivity. Qed.

Example conf_basic_ellipsis_single_column_lint_free : conf_codes doc_basic_ellipsis_single_column = [].
Proof. vm_compute. reflexivity. Qed.

Definition doc_basic_ellipsis_all_column : elem :=
 Elem (utf8 "html") [] [] [(Elem (utf8 "body") [] (utf8 "") [
 (Elem (utf8 "table") [] (utf8 "
") [
  (Elem (utf8 "tr") [] (utf8 "") [
   (Elem (utf8 "td") [(utf8 "colspan", utf8 "2")] (utf8 "") [
    (Elem (utf8 "p") [] (utf8 "") [
     (Elem (utf8 "span") [] (utf8 "Figure ") [], utf8 "");
     (Elem (utf8 "span") [] (utf8 "0") [], utf8 "");
     (Elem (utf8 "span") [] (utf8 ": Test") [], utf8 "")], utf8 "")], utf8 "")], utf8 "");
  (Elem (utf8 "tr") [] (utf8 "
") [
   (Elem (utf8 "th") [] (utf8 "") [
    (Elem (utf8 "p") [] (utf8 "
") [
     (Elem (utf8 "span") [] (utf8 "Value") [], utf8 "")], utf8 "")], utf8 "
");
   (Elem (utf8 "th") [] (utf8 "") [
    (Elem (utf8 "p") [] (utf8 "
") [
     (Elem (utf8 "span") [] (utf8 "Description") [], utf8 "")], utf8 "")], utf8 "
")], utf8 "
");
  (Elem (utf8 "tr") [] (utf8 "
") [
   (Elem (utf8 "td") [] (utf8 "") [
    (Elem (utf8 "p") [] (utf8 "
") [
     (Elem (utf8 "span") [] (utf8 "00b") [], utf8 "")], utf8 "")], utf8 "
");
   (Elem (utf8 "td") [] (utf8 "") [
    (Elem (utf8 "p") [] (utf8 "
") [
     (Elem (utf8 "span") [] (utf8 "VALUE1") [], utf8 "")], utf8 "")], utf8 "
")], utf8 "
");
  (Elem (utf8 "tr") [] (utf8 "
") [
   (Elem (utf8 "td") [] (utf8 "") [
    (Elem (utf8 "p") [] (utf8 "
") [
     (Elem (utf8 "span") [] (utf8 "…") [], utf8 "")], utf8 "")], utf8 "
");
   (Elem (utf8 "td") [] (utf8 "") [
    (Elem (utf8 "p") [] (utf8 "
") [
     (Elem (utf8 "span") [] (utf8 " … ") [], utf8 "")], utf8 "")], utf8 "
")], utf8 "
");
  (Elem (utf8 "tr") [] (utf8 "
") [
   (Elem (utf8 "td") [] (utf8 "") [
    (Elem (utf8 "p") [] (utf8 "
") [
     (Elem (utf8 "span") [] (utf8 "01b") [], utf8 "")], utf8 "")], utf8 "
");
   (Elem (utf8 "td") [] (utf8 "") [
    (Elem (utf8 "p") [] (utf8 "
") [
     (Elem (utf8 "span") [] (utf8 "VALUE2") [], utf8 "")], utf8 "")], utf8 "
")], utf8 "
")], utf8 "")], [])].

(** /repo/tests/test_ellipsis.py:36 *)
Example conf_basic_ellipsis_all_column : conf_ents doc_basic_ellipsis_all_column = Some [
  mkEntity (mkMeta (Some (utf8 "Figure 0: Test")) (utf8 "0") None) (BValues [mkVField (utf8 "00b") (utf8 "VALUE1") None; mkVField (utf8 "…") (utf8 "…") None; mkVField (utf8 "01b") (utf8 "VALUE2") None])].
Proof. vm_compute. reflexivity. Qed.

Example conf_basic_ellipsis_all_column_lint_free : conf_codes doc_basic_ellipsis_all_column = [].
Proof. vm_compute. reflexivity. Qed.

Definition doc_struct_basic_ellipsis_all_column : elem :=
 Elem (utf8 "html") [] [] [(Elem (utf8 "body") [] (utf8 "") [
 (Elem (utf8 "table") [] (utf8 "
") [
  (Elem (utf8 "tr") [] (utf8 "") [
   (Elem (utf8 "td") [(utf8 "colspan", utf8 "2")] (utf8 "") [
    (Elem (utf8 "p") [] (utf8 "") [
     (Elem (utf8 "span") [] (utf8 "Figure ") [], utf8 "");
     (Elem (utf8 "span") [] (utf8 "0") [], utf8 "");
     (Elem (utf8 "span") [] (utf8 ": Test") [], utf8 "")], utf8 "")], utf8 "")], utf8 "");
  (Elem (utf8 "tr") [] (utf8 "
") [
   (Elem (utf8 "th") [] (utf8 "") [
    (Elem (utf8 "p") [] (utf8 "
") [
     (Elem (utf8 "span") [] (utf8 "Bytes") [], utf8 "")], utf8 "")], utf8 "
");
   (Elem (utf8 "th") [] (utf8 "") [
    (Elem (utf8 "p") [] (utf8 "
") [
     (Elem (utf8 "span") [] (utf8 "Description") [], utf8 "")], utf8 "")], utf8 "
")], utf8 "
");
  (Elem (utf8 "tr") [] (utf8 "
") [
   (Elem (utf8 "td") [] (utf8 "") [
    (Elem (utf8 "p") [] (utf8 "
") [
     (Elem (utf8 "span") [] (utf8 "07:00") [], utf8 "")], utf8 "")], utf8 "
");
   (Elem (utf8 "td") [] (utf8 "") [
    (Elem (utf8 "p") [] (utf8 "
") [
     (Elem (utf8 "span") [] (utf8 "This is the name(TEST1): This describes a brief, very brief.") [], utf8 "")], utf8 "")], utf8 "
")], utf8 "
");
  (Elem (utf8 "tr") [] (utf8 "
") [
   (Elem (utf8 "td") [] (utf8 "") [
    (Elem (utf8 "p") [] (utf8 "
") [
     (Elem (utf8 "span") [] (utf8 "…") [], utf8 "")], utf8 "")], utf8 "
");
   (Elem (utf8 "td") [] (utf8 "") [
    (Elem (utf8 "p") [] (utf8 "
") [
     (Elem (utf8 "span") [] (utf8 " … ") [], utf8 "")], utf8 "")], utf8 "
")], utf8 "
");
  (Elem (utf8 "tr") [] (utf8 "
") [
   (Elem (utf8 "td") [] (utf8 "") [
    (Elem (utf8 "p") [] (utf8 "
") [
     (Elem (utf8 "span") [] (utf8 "10:08") [], utf8 "")], utf8 "")], utf8 "
");
   (Elem (utf8 "td") [] (utf8 "") [
    (Elem (utf8 "p") [] (utf8 "
") [
     (Elem (utf8 "span") [] (utf8 "This is the name(TEST2): This describes a brief, very brief.") [], utf8 "")], utf8 "")], utf8 "
")], utf8 "
")], utf8 "")], [])].

(** /repo/tests/test_ellipsis.py:64 *)
Example conf_struct_basic_ellipsis_all_column : conf_ents doc_struct_basic_ellipsis_all_column = Some [
  mkEntity (mkMeta (Some (utf8 "Figure 0: Test")) (utf8 "0") None) (BStruct KBytes [mkSField (utf8 "test1") (RInt (0)%Z (7)%Z) (Some (utf8 "This describes a brief, very brief")); mkSField (utf8 "test2") (RInt (8)%Z (10)%Z) (Some (utf8 "This describes a brief, very brief"))])].
Proof. vm_compute. reflexivity. Qed.

Example conf_struct_basic_ellipsis_all_column_lint_free : conf_codes doc_struct_basic_ellipsis_all_column = [].
Proof. vm_compute. reflexivity. Qed.

Definition doc_struct_basic_ellipsis_single_column : elem :=
 Elem (utf8 "html") [] [] [(Elem (utf8 "body") [] (utf8 "") [
 (Elem (utf8 "table") [] (utf8 "
") [
  (Elem (utf8 "tr") [] (utf8 "") [
   (Elem (utf8 "td") [(utf8 "colspan", utf8 "2")] (utf8 "") [
    (Elem (utf8 "p") [] (utf8 "") [
     (Elem (utf8 "span") [] (utf8 "Figure ") [], utf8 "");
     (Elem (utf8 "span") [] (utf8 "0") [], utf8 "");
     (Elem (utf8 "span") [] (utf8 ": Test") [], utf8 "")], utf8 "")], utf8 "")], utf8 "");
  (Elem (utf8 "tr") [] (utf8 "
") [
   (Elem (utf8 "th") [] (utf8 "") [
    (Elem (utf8 "p") [] (utf8 "
") [
     (Elem (utf8 "span") [] (utf8 "Bytes") [], utf8 "")], utf8 "")], utf8 "
");
   (Elem (utf8 "th") [] (utf8 "") [
    (Elem (utf8 "p") [] (utf8 "
") [
     (Elem (utf8 "span") [] (utf8 "Description") [], utf8 "")], utf8 "")], utf8 "
")], utf8 "
");
  (Elem (utf8 "tr") [] (utf8 "
") [
   (Elem (utf8 "td") [] (utf8 "") [
    (Elem (utf8 "p") [] (utf8 "
") [
     (Elem (utf8 "span") [] (utf8 "07:00") [], utf8 "")], utf8 "")], utf8 "
");
   (Elem (utf8 "td") [] (utf8 "") [
    (Elem (utf8 "p") [] (utf8 "
") [
     (Elem (utf8 "span") [] (utf8 "This is the name(TEST1): This describes a brief, very brief.") [], utf8 "")], utf8 "")], utf8 "
")], utf8 "
");
  (Elem (utf8 "tr") [] (utf8 "
") [
   (Elem (utf8 "td") [] (utf8 "") [
    (Elem (utf8 "p") [] (utf8 "
") [
     (Elem (utf8 "span") [] (utf8 "…") [], utf8 "")], utf8 "")], utf8 "
")], utf8 "
");
  (Elem (utf8 "tr") [] (utf8 "
") [
   (Elem (utf8 "td") [] (utf8 "") [
    (Elem (utf8 "p") [] (utf8 "
") [
     (Elem (utf8 "span") [] (utf8 "10:08") [], utf8 "")], utf8 "")], utf8 "
");
   (Elem (utf8 "td") [] (utf8 "") [
    (Elem (utf8 "p") [] (utf8 "
") [
     (Elem (utf8 "span") [] (utf8 "This is the name(TEST2): This describes a brief, very brief.") [], utf8 "")], utf8 "")], utf8 "
")], utf8 "
")], utf8 "")], [])].

(** /repo/tests/test_ellipsis.py:99 *)
Example conf_struct_basic_ellipsis_single_column : conf_ents doc_struct_basic_ellipsis_single_column = Some [
  mkEntity (mkMeta (Some (utf8 "Figure 0: Test")) (utf8 "0") None) (BStruct KBytes [mkSField (utf8 "test1") (RInt (0)%Z (7)%Z) (Some (utf8 "This describes a brief, very brief")); mkSField (utf8 "…") (RInt (-1)%Z (-1)%Z) None; mkSField (utf8 "test2") (RInt (8)%Z (10)%Z) (Some (utf8 "This describes a brief, very brief"))])].
Proof. vm_compute. reflexivity. Qed.

Example conf_struct_basic_ellipsis_single_column_lint_free : conf_codes doc_struct_basic_ellipsis_single_column = [].
Proof. vm_compute. reflexivity. Qed.

Definition doc_label_bits_table_with_brief : elem :=
 Elem (utf8 "html") [] [] [(Elem (utf8 "body") [] (utf8 "") [
 (Elem (utf8 "table") [] (utf8 "
") [
  (Elem (utf8 "tr") [] (utf8 "") [
   (Elem (utf8 "td") [(utf8 "colspan", utf8 "2")] (utf8 "") [
    (Elem (utf8 "p") [] (utf8 "") [
     (Elem (utf8 "span") [] (utf8 "Figure ") [], utf8 "");
     (Elem (utf8 "span") [] (utf8 "0") [], utf8 "");
     (Elem (utf8 "span") [] (utf8 ": Test") [], utf8 "")], utf8 "")], utf8 "")], utf8 "");
  (Elem (utf8 "tr") [] (utf8 "
") [
   (Elem (utf8 "th") [] (utf8 "") [
    (Elem (utf8 "p") [] (utf8 "
") [
     (Elem (utf8 "span") [] (utf8 "Bits") [], utf8 "")], utf8 "")], utf8 "
");
   (Elem (utf8 "th") [] (utf8 "") [
    (Elem (utf8 "p") [] (utf8 "
") [
     (Elem (utf8 "span") [] (utf8 "Description") [], utf8 "")], utf8 "")], utf8 "
")], utf8 "
");
  (Elem (utf8 "tr") [] (utf8 "
") [
   (Elem (utf8 "td") [] (utf8 "") [
    (Elem (utf8 "p") [] (utf8 "
") [
     (Elem (utf8 "span") [] (utf8 "07:00") [], utf8 "")], utf8 "")], utf8 "
");
   (Elem (utf8 "td") [] (utf8 "") [
    (Elem (utf8 "p") [] (utf8 "
") [
     (Elem (utf8 "span") [] (utf8 "This is the name(TEST): This describes a brief") [], utf8 "")], utf8 "")], utf8 "
")], utf8 "
")], utf8 "")], [])].

(** /repo/tests/test_struct_labels.py:12 *)
Example conf_label_bits_table_with_brief : conf_ents doc_label_bits_table_with_brief = Some [
  mkEntity (mkMeta (Some (utf8 "Figure 0: Test")) (utf8 "0") None) (BStruct KBits [mkSField (utf8 "test") (RInt (0)%Z (7)%Z) (Some (utf8 "This describes a brief"))])].
Proof. vm_compute. reflexivity. Qed.

Example conf_label_bits_table_with_brief_lint_free : conf_codes doc_label_bits_table_with_brief = [].
Proof. vm_compute. reflexivity. Qed.

Definition doc_label_bytes_table_with_brief : elem :=
 Elem (utf8 "html") [] [] [(Elem (utf8 "body") [] (utf8 "") [
 (Elem (utf8 "table") [] (utf8 "
") [
  (Elem (utf8 "tr") [] (utf8 "") [
   (Elem (utf8 "td") [(utf8 "colspan", utf8 "2")] (utf8 "") [
    (Elem (utf8 "p") [] (utf8 "") [
     (Elem (utf8 "span") [] (utf8 "Figure ") [], utf8 "");
     (Elem (utf8 "span") [] (utf8 "0") [], utf8 "");
     (Elem (utf8 "span") [] (utf8 ": Test") [], utf8 "")], utf8 "")], utf8 "")], utf8 "");
  (Elem (utf8 "tr") [] (utf8 "
") [
   (Elem (utf8 "th") [] (utf8 "") [
    (Elem (utf8 "p") [] (utf8 "
") [
     (Elem (utf8 "span") [] (utf8 "Bytes") [], utf8 "")], utf8 "")], utf8 "
");
   (Elem (utf8 "th") [] (utf8 "") [
    (Elem (utf8 "p") [] (utf8 "
") [
     (Elem (utf8 "span") [] (utf8 "Description") [], utf8 "")], utf8 "")], utf8 "
")], utf8 "
");
  (Elem (utf8 "tr") [] (utf8 "
") [
   (Elem (utf8 "td") [] (utf8 "") [
    (Elem (utf8 "p") [] (utf8 "
") [
     (Elem (utf8 "span") [] (utf8 "07:00") [], utf8 "")], utf8 "")], utf8 "
");
   (Elem (utf8 "td") [] (utf8 "") [
    (Elem (utf8 "p") [] (utf8 "
") [
     (Elem (utf8 "span") [] (utf8 "This is the name(TEST): This describes a brief, very brief.") [], utf8 "")], utf8 "")], utf8 "
")], utf8 "
")], utf8 "")], [])].

(** /repo/tests/test_struct_labels.py:40 *)
Example conf_label_bytes_table_with_brief : conf_ents doc_label_bytes_table_with_brief = Some [
  mkEntity (mkMeta (Some (utf8 "Figure 0: Test")) (utf8 "0") None) (BStruct KBytes [mkSField (utf8 "test") (RInt (0)%Z (7)%Z) (Some (utf8 "This describes a brief, very brief"))])].
Proof. vm_compute. reflexivity. Qed.

Example conf_label_bytes_table_with_brief_lint_free : conf_codes doc_label_bytes_table_with_brief = [].
Proof. vm_compute. reflexivity. Qed.

Definition doc_label_bits_table_without_brief : elem :=
 Elem (utf8 "html") [] [] [(Elem (utf8 "body") [] (utf8 "") [
 (Elem (utf8 "table") [] (utf8 "
") [
  (Elem (utf8 "tr") [] (utf8 "") [
   (Elem (utf8 "td") [(utf8 "colspan", utf8 "2")] (utf8 "") [
    (Elem (utf8 "p") [] (utf8 "") [
     (Elem (utf8 "span") [] (utf8 "Figure ") [], utf8 "");
     (Elem (utf8 "span") [] (utf8 "0") [], utf8 "");
     (Elem (utf8 "span") [] (utf8 ": Test") [], utf8 "")], utf8 "")], utf8 "")], utf8 "");
  (Elem (utf8 "tr") [] (utf8 "
") [
   (Elem (utf8 "th") [] (utf8 "") [
    (Elem (utf8 "p") [] (utf8 "
") [
     (Elem (utf8 "span") [] (utf8 "Bits") [], utf8 "")], utf8 "")], utf8 "
");
   (Elem (utf8 "th") [] (utf8 "") [
    (Elem (utf8 "p") [] (utf8 "
") [
     (Elem (utf8 "span") [] (utf8 "Description") [], utf8 "")], utf8 "")], utf8 "
")], utf8 "
");
  (Elem (utf8 "tr") [] (utf8 "
") [
   (Elem (utf8 "td") [] (utf8 "") [
    (Elem (utf8 "p") [] (utf8 "
") [
     (Elem (utf8 "span") [] (utf8 "07:00") [], utf8 "")], utf8 "")], utf8 "
");
   (Elem (utf8 "td") [] (utf8 "") [
    (Elem (utf8 "p") [] (utf8 "
") [
     (Elem (utf8 "span") [] (utf8 "This is the name(TEST)") [], utf8 "")], utf8 "")], utf8 "
")], utf8 "
")], utf8 "")], [])].

(** /repo/tests/test_struct_labels.py:69 *)
Example conf_label_bits_table_without_brief : conf_ents doc_label_bits_table_without_brief = Some [
  mkEntity (mkMeta (Some (utf8 "Figure 0: Test")) (utf8 "0") None) (BStruct KBits [mkSField (utf8 "test") (RInt (0)%Z (7)%Z) None])].
Proof. vm_compute. reflexivity. Qed.

Example conf_label_bits_table_without_brief_lint_free : conf_codes doc_label_bits_table_without_brief = [].
Proof. vm_compute. reflexivity. Qed.

Definition doc_label_bytes_table_without_brief : elem :=
 Elem (utf8 "html") [] [] [(Elem (utf8 "body") [] (utf8 "") [
 (Elem (utf8 "table") [] (utf8 "
") [
  (Elem (utf8 "tr") [] (utf8 "") [
   (Elem (utf8 "td") [(utf8 "colspan", utf8 "2")] (utf8 "") [
    (Elem (utf8 "p") [] (utf8 "") [
     (Elem (utf8 "span") [] (utf8 "Figure ") [], utf8 "");
     (Elem (utf8 "span") [] (utf8 "0") [], utf8 "");
     (Elem (utf8 "span") [] (utf8 ": Test") [], utf8 "")], utf8 "")], utf8 "")], utf8 "");
  (Elem (utf8 "tr") [] (utf8 "
") [
   (Elem (utf8 "th") [] (utf8 "") [
    (Elem (utf8 "p") [] (utf8 "
") [
     (Elem (utf8 "span") [] (utf8 "Bytes") [], utf8 "")], utf8 "")], utf8 "
");
   (Elem (utf8 "th") [] (utf8 "") [
    (Elem (utf8 "p") [] (utf8 "
") [
     (Elem (utf8 "span") [] (utf8 "Description") [], utf8 "")], utf8 "")], utf8 "
")], utf8 "
");
  (Elem (utf8 "tr") [] (utf8 "
") [
   (Elem (utf8 "td") [] (utf8 "") [
    (Elem (utf8 "p") [] (utf8 "
") [
     (Elem (utf8 "span") [] (utf8 "07:00") [], utf8 "")], utf8 "")], utf8 "
");
   (Elem (utf8 "td") [] (utf8 "") [
    (Elem (utf8 "p") [] (utf8 "
") [
     (Elem (utf8 "span") [] (utf8 "This is the name(TEST)") [], utf8 "")], utf8 "")], utf8 "
")], utf8 "
")], utf8 "")], [])].

(** /repo/tests/test_struct_labels.py:91 *)
Example conf_label_bytes_table_without_brief : conf_ents doc_label_bytes_table_without_brief = Some [
  mkEntity (mkMeta (Some (utf8 "Figure 0: Test")) (utf8 "0") None) (BStruct KBytes [mkSField (utf8 "test") (RInt (0)%Z (7)%Z) None])].
Proof. vm_compute. reflexivity. Qed.

Example conf_label_bytes_table_without_brief_lint_free : conf_codes doc_label_bytes_table_without_brief = [].
Proof. vm_compute. reflexivity. Qed.

Definition doc_label_value_table_with_brief : elem :=
 Elem (utf8 "html") [] [] [(Elem (utf8 "body") [] (utf8 "") [
 (Elem (utf8 "table") [] (utf8 "
") [
  (Elem (utf8 "tr") [] (utf8 "") [
   (Elem (utf8 "td") [(utf8 "colspan", utf8 "2")] (utf8 "") [
    (Elem (utf8 "p") [] (utf8 "") [
     (Elem (utf8 "span") [] (utf8 "Figure ") [], utf8 "");
     (Elem (utf8 "span") [] (utf8 "0") [], utf8 "");
     (Elem (utf8 "span") [] (utf8 ": Test") [], utf8 "")], utf8 "")], utf8 "")], utf8 "");
  (Elem (utf8 "tr") [] (utf8 "
") [
   (Elem (utf8 "th") [] (utf8 "") [
    (Elem (utf8 "p") [] (utf8 "
") [
     (Elem (utf8 "span") [] (utf8 "Value") [], utf8 "")], utf8 "")], utf8 "
");
   (Elem (utf8 "th") [] (utf8 "") [
    (Elem (utf8 "p") [] (utf8 "
") [
     (Elem (utf8 "span") [] (utf8 "Description") [], utf8 "")], utf8 "")], utf8 "
")], utf8 "
");
  (Elem (utf8 "tr") [] (utf8 "
") [
   (Elem (utf8 "td") [] (utf8 "") [
    (Elem (utf8 "p") [] (utf8 "
") [
     (Elem (utf8 "span") [] (utf8 "00b") [], utf8 "")], utf8 "")], utf8 "
");
   (Elem (utf8 "td") [] (utf8 "") [
    (Elem (utf8 "p") [] (utf8 "
") [
     (Elem (utf8 "span") [] (utf8 "This is the name(Test): This describes a brief") [], utf8 "")], utf8 "")], utf8 "
")], utf8 "
")], utf8 "")], [])].

(** /repo/tests/test_value_labels.py:12 *)
Example conf_label_value_table_with_brief : conf_ents doc_label_value_table_with_brief = Some [
  mkEntity (mkMeta (Some (utf8 "Figure 0: Test")) (utf8 "0") None) (BValues [mkVField (utf8 "00b") (utf8 "THIS_IS_THE_NAME") (Some (utf8 "This describes a brief"))])].
Proof. vm_compute. reflexivity. Qed.

Example conf_label_value_table_with_brief_lint_free : conf_codes doc_label_value_table_with_brief = [].
Proof. vm_compute. reflexivity. Qed.

Definition doc_label_value_table_without_acronym : elem :=
 Elem (utf8 "html") [] [] [(Elem (utf8 "body") [] (utf8 "") [
 (Elem (utf8 "table") [] (utf8 "
") [
  (Elem (utf8 "tr") [] (utf8 "") [
   (Elem (utf8 "td") [(utf8 "colspan", utf8 "2")] (utf8 "") [
    (Elem (utf8 "p") [] (utf8 "") [
     (Elem (utf8 "span") [] (utf8 "Figure ") [], utf8 "");
     (Elem (utf8 "span") [] (utf8 "0") [], utf8 "");
     (Elem (utf8 "span") [] (utf8 ": Test") [], utf8 "")], utf8 "")], utf8 "")], utf8 "");
  (Elem (utf8 "tr") [] (utf8 "
") [
   (Elem (utf8 "th") [] (utf8 "") [
    (Elem (utf8 "p") [] (utf8 "
") [
     (Elem (utf8 "span") [] (utf8 "Value") [], utf8 "")], utf8 "")], utf8 "
");
   (Elem (utf8 "th") [] (utf8 "") [
    (Elem (utf8 "p") [] (utf8 "
") [
     (Elem (utf8 "span") [] (utf8 "Description") [], utf8 "")], utf8 "")], utf8 "
")], utf8 "
");
  (Elem (utf8 "tr") [] (utf8 "
") [
   (Elem (utf8 "td") [] (utf8 "") [
    (Elem (utf8 "p") [] (utf8 "
") [
     (Elem (utf8 "span") [] (utf8 "00b") [], utf8 "")], utf8 "")], utf8 "
");
   (Elem (utf8 "td") [] (utf8 "") [
    (Elem (utf8 "p") [] (utf8 "
") [
     (Elem (utf8 "span") [] (utf8 "This is the name: Lorem ipsum dolor sit amet") [], utf8 "")], utf8 "")], utf8 "
")], utf8 "
")], utf8 "")], [])].

(** /repo/tests/test_value_labels.py:40 *)
Example conf_label_value_table_without_acronym : conf_ents doc_label_value_table_without_acronym = Some [
  mkEntity (mkMeta (Some (utf8 "Figure 0: Test")) (utf8 "0") None) (BValues [mkVField (utf8 "00b") (utf8 "THIS_IS_THE_NAME") (Some (utf8 "Lorem ipsum dolor sit amet"))])].
Proof. vm_compute. reflexivity. Qed.

Example conf_label_value_table_without_acronym_lint_free : conf_codes doc_label_value_table_without_acronym = [].
Proof. vm_compute. reflexivity. Qed.

Definition doc_label_value_table_without_brief : elem :=
 Elem (utf8 "html") [] [] [(Elem (utf8 "body") [] (utf8 "") [
 (Elem (utf8 "table") [] (utf8 "
") [
  (Elem (utf8 "tr") [] (utf8 "") [
   (Elem (utf8 "td") [(utf8 "colspan", utf8 "2")] (utf8 "") [
    (Elem (utf8 "p") [] (utf8 "") [
     (Elem (utf8 "span") [] (utf8 "Figure ") [], utf8 "");
     (Elem (utf8 "span") [] (utf8 "0") [], utf8 "");
     (Elem (utf8 "span") [] (utf8 ": Test") [], utf8 "")], utf8 "")], utf8 "")], utf8 "");
  (Elem (utf8 "tr") [] (utf8 "
") [
   (Elem (utf8 "th") [] (utf8 "") [
    (Elem (utf8 "p") [] (utf8 "
") [
     (Elem (utf8 "span") [] (utf8 "Value") [], utf8 "")], utf8 "")], utf8 "
");
   (Elem (utf8 "th") [] (utf8 "") [
    (Elem (utf8 "p") [] (utf8 "
") [
     (Elem (utf8 "span") [] (utf8 "Description") [], utf8 "")], utf8 "")], utf8 "
")], utf8 "
");
  (Elem (utf8 "tr") [] (utf8 "
") [
   (Elem (utf8 "td") [] (utf8 "") [
    (Elem (utf8 "p") [] (utf8 "
") [
     (Elem (utf8 "span") [] (utf8 "00b") [], utf8 "")], utf8 "")], utf8 "
");
   (Elem (utf8 "td") [] (utf8 "") [
    (Elem (utf8 "p") [] (utf8 "
") [
     (Elem (utf8 "span") [] (utf8 "Tertiary Version (TER)") [], utf8 "")], utf8 "")], utf8 "
")], utf8 "
")], utf8 "")], [])].

(** /repo/tests/test_value_labels.py:68 *)
Example conf_label_value_table_without_brief : conf_ents doc_label_value_table_without_brief = Some [
  mkEntity (mkMeta (Some (utf8 "Figure 0: Test")) (utf8 "0") None) (BValues [mkVField (utf8 "00b") (utf8 "TERTIARY_VERSION") None])].
Proof. vm_compute. reflexivity. Qed.

Example conf_label_value_table_without_brief_lint_free : conf_codes doc_label_value_table_without_brief = [].
Proof. vm_compute. reflexivity. Qed.

Definition doc_label_value_table_with_num_prefix : elem :=
 Elem (utf8 "html") [] [] [(Elem (utf8 "body") [] (utf8 "") [
 (Elem (utf8 "table") [] (utf8 "
") [
  (Elem (utf8 "tr") [] (utf8 "") [
   (Elem (utf8 "td") [(utf8 "colspan", utf8 "2")] (utf8 "") [
    (Elem (utf8 "p") [] (utf8 "") [
     (Elem (utf8 "span") [] (utf8 "Figure ") [], utf8 "");
     (Elem (utf8 "span") [] (utf8 "0") [], utf8 "");
     (Elem (utf8 "span") [] (utf8 ": Test") [], utf8 "")], utf8 "")], utf8 "")], utf8 "");
  (Elem (utf8 "tr") [] (utf8 "
") [
   (Elem (utf8 "th") [] (utf8 "") [
    (Elem (utf8 "p") [] (utf8 "
") [
     (Elem (utf8 "span") [] (utf8 "Value") [], utf8 "")], utf8 "")], utf8 "
");
   (Elem (utf8 "th") [] (utf8 "") [
    (Elem (utf8 "p") [] (utf8 "
") [
     (Elem (utf8 "span") [] (utf8 "Definition") [], utf8 "")], utf8 "")], utf8 "
")], utf8 "
");
  (Elem (utf8 "tr") [] (utf8 "
") [
   (Elem (utf8 "td") [] (utf8 "") [
    (Elem (utf8 "p") [] (utf8 "
") [
     (Elem (utf8 "span") [] (utf8 "0h") [], utf8 "")], utf8 "")], utf8 "
");
   (Elem (utf8 "td") [] (utf8 "") [
    (Elem (utf8 "p") [] (utf8 "
") [
     (Elem (utf8 "span") [] (utf8 "1 microsecond") [], utf8 "")], utf8 "")], utf8 "
")], utf8 "
");
  (Elem (utf8 "tr") [] (utf8 "
") [
   (Elem (utf8 "td") [] (utf8 "") [
    (Elem (utf8 "p") [] (utf8 "
") [
     (Elem (utf8 "span") [] (utf8 "1h") [], utf8 "")], utf8 "")], utf8 "
");
   (Elem (utf8 "td") [] (utf8 "") [
    (Elem (utf8 "p") [] (utf8 "
") [
     (Elem (utf8 "span") [] (utf8 "10 microseconds") [], utf8 "")], utf8 "")], utf8 "
")], utf8 "
");
  (Elem (utf8 "tr") [] (utf8 "
") [
   (Elem (utf8 "td") [] (utf8 "") [
    (Elem (utf8 "p") [] (utf8 "
") [
     (Elem (utf8 "span") [] (utf8 "2h") [], utf8 "")], utf8 "")], utf8 "
");
   (Elem (utf8 "td") [] (utf8 "") [
    (Elem (utf8 "p") [] (utf8 "
") [
     (Elem (utf8 "span") [] (utf8 "100 microseconds") [], utf8 "")], utf8 "")], utf8 "
")], utf8 "
");
  (Elem (utf8 "tr") [] (utf8 "
") [
   (Elem (utf8 "td") [] (utf8 "") [
    (Elem (utf8 "p") [] (utf8 "
") [
     (Elem (utf8 "span") [] (utf8 "3h") [], utf8 "")], utf8 "")], utf8 "
");
   (Elem (utf8 "td") [] (utf8 "") [
    (Elem (utf8 "p") [] (utf8 "
") [
     (Elem (utf8 "span") [] (utf8 "1 millisecond") [], utf8 "")], utf8 "")], utf8 "
")], utf8 "
");
  (Elem (utf8 "tr") [] (utf8 "
") [
   (Elem (utf8 "td") [] (utf8 "") [
    (Elem (utf8 "p") [] (utf8 "
") [
     (Elem (utf8 "span") [] (utf8 "4h") [], utf8 "")], utf8 "")], utf8 "
");
   (Elem (utf8 "td") [] (utf8 "") [
    (Elem (utf8 "p") [] (utf8 "
") [
     (Elem (utf8 "span") [] (utf8 "10 milliseconds") [], utf8 "")], utf8 "")], utf8 "
")], utf8 "
");
  (Elem (utf8 "tr") [] (utf8 "
") [
   (Elem (utf8 "td") [] (utf8 "") [
    (Elem (utf8 "p") [] (utf8 "
") [
     (Elem (utf8 "span") [] (utf8 "5h") [], utf8 "")], utf8 "")], utf8 "
");
   (Elem (utf8 "td") [] (utf8 "") [
    (Elem (utf8 "p") [] (utf8 "
") [
     (Elem (utf8 "span") [] (utf8 "100 milliseconds") [], utf8 "")], utf8 "")], utf8 "
")], utf8 "
");
  (Elem (utf8 "tr") [] (utf8 "
") [
   (Elem (utf8 "td") [] (utf8 "") [
    (Elem (utf8 "p") [] (utf8 "
") [
     (Elem (utf8 "span") [] (utf8 "6h") [], utf8 "")], utf8 "")], utf8 "
");
   (Elem (utf8 "td") [] (utf8 "") [
    (Elem (utf8 "p") [] (utf8 "
") [
     (Elem (utf8 "span") [] (utf8 "1 second") [], utf8 "")], utf8 "")], utf8 "
")], utf8 "
");
  (Elem (utf8 "tr") [] (utf8 "
") [
   (Elem (utf8 "td") [] (utf8 "") [
    (Elem (utf8 "p") [] (utf8 "
") [
     (Elem (utf8 "span") [] (utf8 "7h") [], utf8 "")], utf8 "")], utf8 "
");
   (Elem (utf8 "td") [] (utf8 "") [
    (Elem (utf8 "p") [] (utf8 "
") [
     (Elem (utf8 "span") [] (utf8 "10 seconds") [], utf8 "")], utf8 "")], utf8 "
")], utf8 "
");
  (Elem (utf8 "tr") [] (utf8 "
") [
   (Elem (utf8 "td") [] (utf8 "") [
    (Elem (utf8 "p") [] (utf8 "
") [
     (Elem (utf8 "span") [] (utf8 "8h") [], utf8 "")], utf8 "")], utf8 "
");
   (Elem (utf8 "td") [] (utf8 "") [
    (Elem (utf8 "p") [] (utf8 "
") [
     (Elem (utf8 "span") [] (utf8 "100 seconds") [], utf8 "")], utf8 "")], utf8 "
")], utf8 "
");
  (Elem (utf8 "tr") [] (utf8 "
") [
   (Elem (utf8 "td") [] (utf8 "") [
    (Elem (utf8 "p") [] (utf8 "
") [
     (Elem (utf8 "span") [] (utf8 "9h") [], utf8 "")], utf8 "")], utf8 "
");
   (Elem (utf8 "td") [] (utf8 "") [
    (Elem (utf8 "p") [] (utf8 "
") [
     (Elem (utf8 "span") [] (utf8 "1,000 seconds") [], utf8 "")], utf8 "")], utf8 "
")], utf8 "
");
  (Elem (utf8 "tr") [] (utf8 "
") [
   (Elem (utf8 "td") [] (utf8 "") [
    (Elem (utf8 "p") [] (utf8 "
") [
     (Elem (utf8 "span") [] (utf8 "Ah") [], utf8 "")], utf8 "")], utf8 "
");
   (Elem (utf8 "td") [] (utf8 "") [
    (Elem (utf8 "p") [] (utf8 "
") [
     (Elem (utf8 "span") [] (utf8 "10,000 seconds") [], utf8 "")], utf8 "")], utf8 "
")], utf8 "
");
  (Elem (utf8 "tr") [] (utf8 "
") [
   (Elem (utf8 "td") [] (utf8 "") [
    (Elem (utf8 "p") [] (utf8 "
") [
     (Elem (utf8 "span") [] (utf8 "Bh") [], utf8 "")], utf8 "")], utf8 "
");
   (Elem (utf8 "td") [] (utf8 "") [
    (Elem (utf8 "p") [] (utf8 "
") [
     (Elem (utf8 "span") [] (utf8 "100,000 seconds") [], utf8 "")], utf8 "")], utf8 "
")], utf8 "
");
  (Elem (utf8 "tr") [] (utf8 "
") [
   (Elem (utf8 "td") [] (utf8 "") [
    (Elem (utf8 "p") [] (utf8 "
") [
     (Elem (utf8 "span") [] (utf8 "Ch") [], utf8 "")], utf8 "")], utf8 "
");
   (Elem (utf8 "td") [] (utf8 "") [
    (Elem (utf8 "p") [] (utf8 "
") [
     (Elem (utf8 "span") [] (utf8 "1,000,000 seconds") [], utf8 "")], utf8 "")], utf8 "
")], utf8 "
");
  (Elem (utf8 "tr") [] (utf8 "
") [
   (Elem (utf8 "td") [] (utf8 "") [
    (Elem (utf8 "p") [] (utf8 "
") [
     (Elem (utf8 "span") [] (utf8 "Dh") [], utf8 "")], utf8 "")], utf8 "
");
   (Elem (utf8 "td") [] (utf8 "") [
    (Elem (utf8 "p") [] (utf8 "
") [
     (Elem (utf8 "span") [] (utf8 "Reserved") [], utf8 "")], utf8 "")], utf8 "
")], utf8 "
");
  (Elem (utf8 "tr") [] (utf8 "
") [
   (Elem (utf8 "td") [] (utf8 "") [
    (Elem (utf8 "p") [] (utf8 "
") [
     (Elem (utf8 "span") [] (utf8 "Eh") [], utf8 "")], utf8 "")], utf8 "
");
   (Elem (utf8 "td") [] (utf8 "") [
    (Elem (utf8 "p") [] (utf8 "
") [
     (Elem (utf8 "span") [] (utf8 "Reserved") [], utf8 "")], utf8 "")], utf8 "
")], utf8 "
");
  (Elem (utf8 "tr") [] (utf8 "
") [
   (Elem (utf8 "td") [] (utf8 "") [
    (Elem (utf8 "p") [] (utf8 "
") [
     (Elem (utf8 "span") [] (utf8 "Fh") [], utf8 "")], utf8 "")], utf8 "
");
   (Elem (utf8 "td") [] (utf8 "") [
    (Elem (utf8 "p") [] (utf8 "
") [
     (Elem (utf8 "span") [] (utf8 "Reserved") [], utf8 "")], utf8 "")], utf8 "
")], utf8 "
")], utf8 "")], [])].

(** /repo/tests/test_value_labels.py:90 *)
Example conf_label_value_table_with_num_prefix : conf_ents doc_label_value_table_with_num_prefix = Some [
  mkEntity (mkMeta (Some (utf8 "Figure 0: Test")) (utf8 "0") None) (BValues [mkVField (utf8 "0h") (utf8 "MICROSECOND_1") None; mkVField (utf8 "1h") (utf8 "MICROSECONDS_10") None; mkVField (utf8 "2h") (utf8 "MICROSECONDS_100") None; mkVField (utf8 "3h") (utf8 "MILLISECOND_1") None; mkVField (utf8 "4h") (utf8 "MILLISECONDS_10") None; mkVField (utf8 "5h") (utf8 "MILLISECONDS_100") None; mkVField (utf8 "6h") (utf8 "SECOND_1") None; mkVField (utf8 "7h") (utf8 "SECONDS_10") None; mkVField (utf8 "8h") (utf8 "SECONDS_100") None; mkVField (utf8 "9h") (utf8 "1") None; mkVField (utf8 "ah") (utf8 "10") None; mkVField (utf8 "bh") (utf8 "100") None; mkVField (utf8 "ch") (utf8 "1") None; mkVField (utf8 "dh") (utf8 "RESERVED") None; mkVField (utf8 "eh") (utf8 "RESERVED") None; mkVField (utf8 "fh") (utf8 "RESERVED") None])].
Proof. vm_compute. reflexivity. Qed.

Example conf_label_value_table_with_num_prefix_not_skipped : existsb (code_eqb T1007) (conf_codes doc_label_value_table_with_num_prefix) = false.
Proof. vm_compute. reflexivity. Qed.
