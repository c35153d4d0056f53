(** src/spex/resources/stage2.schema.json and src/spex/validate.py: the published schema of the
    JSON document and its evaluation. *)
From Coq Require Import NArith ZArith List Bool String.
From Verif Require Import PyStr Json.
Import ListNotations.
Local Open Scope string_scope.
Local Open Scope list_scope.

(** The JSON Schema keywords used by the schema: type, enum (of strings), minimum, maximum,
    minItems, properties, required, items, anyOf.  The annotations ($schema, title,
    description) have no effect on validity. *)
Inductive jtype := TObject | TArray | TString | TInteger | TNumber.
Inductive schema := Schema
  (type : option jtype) (enum : option (list str)) (minimum maximum : option Z) (minItems : nat)
  (properties : list (str * schema)) (required : list str) (items : option schema)
  (anyOf : option (list schema)).

(** Instances of a type; all our numbers are integers. *)
Definition has_type (t : jtype) (j : json) : bool :=
  match t, j with
  | TObject, JObj _ | TArray, JList _ | TString, JStr _ | TInteger, JInt _ | TNumber, JInt _ => true
  | _, _ => false
  end.

(** validate.py:11-17 with the semantics of draft 2020-12 (the jsonschema package): every
    keyword constrains instances of its type only. *)
Fixpoint valid (s : schema) (j : json) : bool :=
  match s with
  | Schema type enum minimum maximum minItems properties required items anyOf =>
      match type with Some t => has_type t j | None => true end
      && match enum with Some l => match j with JStr s => smem s l | _ => false end | None => true end
      && match j with
         | JInt z => match minimum with Some m => Z.leb m z | None => true end
                     && match maximum with Some m => Z.leb z m | None => true end
         | JList l => Nat.leb minItems (List.length l)
                      && match items with Some s => forallb (valid s) l | None => true end
         | JObj l => forallb (fun k => match jget k l with Some _ => true | None => false end) required
                     && forallb (fun p => match jget (fst p) l with Some v => valid (snd p) v | None => true end) properties
         | _ => true
         end
      && match anyOf with Some l => existsb (fun s => valid s j) l | None => true end
  end.

(** src/spex/resources/stage2.schema.json:1-197 *)
Definition stage2_schema : schema :=
  Schema (Some TObject) None None None 0 [
   (utf8 "meta", Schema (Some TObject) None None None 0 [
     (utf8 "specification", Schema (Some TString) None None None 0 [] [] None None);
     (utf8 "revision", Schema (Some TString) None None None 0 [] [] None None);
     (utf8 "format version", Schema (Some TNumber) None (Some (1)%Z) None 0 [] [] None None);
     (utf8 "spex version", Schema (Some TString) None None None 0 [] [] None None);
     (utf8 "lint", Schema (Some TArray) None None None 0 [] [] (Some (Schema (Some TObject) None None None 0 [
         (utf8 "code", Schema (Some TString) None None None 0 [] [] None None);
         (utf8 "msg", Schema (Some TString) None None None 0 [] [] None None);
         (utf8 "fig", Schema (Some TString) None None None 0 [] [] None None);
         (utf8 "context", Schema (Some TObject) None None None 0 [] [] None None);
         (utf8 "row", Schema (Some TString) None None None 0 [] [] None None)] [utf8 "code"; utf8 "msg"; utf8 "fig"; utf8 "context"] None None)) None)] [utf8 "specification"; utf8 "revision"; utf8 "format version"] None None);
   (utf8 "entities", Schema (Some TArray) None None None 0 [] [] (Some (Schema None None None None 0 [] [] None (Some [
       Schema (Some TObject) None None None 0 [
         (utf8 "title", Schema (Some TString) None None None 0 [] [] None None);
         (utf8 "fig_id", Schema (Some TString) None None None 0 [] [] None None);
         (utf8 "type", Schema (Some TString) (Some [utf8 "values"]) None None 0 [] [] None None);
         (utf8 "fields", Schema (Some TArray) None None None 1 [] [] (Some (Schema (Some TObject) None None None 0 [
             (utf8 "val", Schema (Some TString) None None None 0 [] [] None None);
             (utf8 "label", Schema (Some TString) None None None 0 [] [] None None);
             (utf8 "brief", Schema (Some TString) None None None 0 [] [] None None)] [utf8 "val"; utf8 "label"] None None)) None)] [utf8 "fig_id"; utf8 "type"] None None;
       Schema (Some TObject) None None None 0 [
         (utf8 "title", Schema (Some TString) None None None 0 [] [] None None);
         (utf8 "fig_id", Schema (Some TString) None None None 0 [] [] None None);
         (utf8 "type", Schema (Some TString) (Some [utf8 "bits"; utf8 "bytes"]) None None 0 [] [] None None);
         (utf8 "fields", Schema (Some TArray) None None None 0 [] [] (Some (Schema (Some TObject) None None None 0 [
             (utf8 "range", Schema None None None None 0 [] [] None (Some [
               Schema (Some TString) None None None 0 [] [] None None;
               Schema (Some TObject) None None None 0 [
                 (utf8 "low", Schema (Some TInteger) None (Some (0)%Z) None 0 [] [] None None);
                 (utf8 "high", Schema (Some TInteger) None None None 0 [] [] None None)] [] None None;
               Schema (Some TObject) None None None 0 [
                 (utf8 "low", Schema (Some TInteger) None (Some (-1)%Z) (Some (-1)%Z) 0 [] [] None None);
                 (utf8 "high", Schema (Some TInteger) None (Some (-1)%Z) (Some (-1)%Z) 0 [] [] None None)] [] None None]));
             (utf8 "label", Schema (Some TString) None None None 0 [] [] None None);
             (utf8 "brief", Schema (Some TString) None None None 0 [] [] None None)] [utf8 "range"; utf8 "label"] None None)) None)] [utf8 "fig_id"; utf8 "type"] None None]))) None)] [utf8 "meta"; utf8 "entities"] None None.
