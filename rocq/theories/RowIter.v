(** src/spex/jsonspec/rowiter.py: iterating table rows with rowspan cells re-inserted. *)
From Coq Require Import NArith ZArith List Bool.
From Verif Require Import PyStr Xml Lint.
Import ListNotations.
Local Open Scope Z_scope.

(** rowiter.py:60,67,111,117: [int(e.get(a, 1))]; [None] is ValueError. *)
Definition span_attr (a : str) (e : elem) : option Z :=
  match attr a e with None => Some 1 | Some s => py_int s end.

(** rowiter.py:31, ALST: column offset, cell (with its tail text), remaining rows. *)
Definition alst := list (Z * kid * Z).

(** rowiter.py:38-40, alst_count_decr *)
Definition alst_count_decr (l : alst) : alst :=
  flat_map (fun '(n, k, c) => if 1 <? c then [(n, k, c - 1)] else []) l.

(** rowiter.py:43-49, alst_insert *)
Fixpoint alst_insert (l : alst) (ndx : Z) (k : kid) (count : Z) : alst :=
  match l with
  | [] => [(ndx, k, count)]
  | (n, k', c') :: r =>
      if ndx <? n then (ndx, k, count) :: l else (n, k', c') :: alst_insert r ndx k count
  end.

(** rowiter.py:58-64: re-insert the stored cells that start at the current column.
    Result: cells yielded, stored cells left, new column; [None] is ValueError. *)
Fixpoint flush (pend : list (Z * kid)) (col : Z) : option (list kid * list (Z * kid) * Z) :=
  match pend with
  | [] => Some ([], [], col)
  | (off, k) :: r =>
      if off =? col then
        match span_attr a_colspan (fst k) with
        | None => None
        | Some w =>
            match flush r (col + w) with
            | Some (ys, p, c) => Some (k :: ys, p, c)
            | None => None
            end
        end
      else Some ([], pend, col)
  end.

(** rowiter.py:57-72: merge the row's own cells with the stored ones. *)
Fixpoint merge_cells (tds : list kid) (pend : list (Z * kid)) (col : Z) : option (list kid) :=
  match tds with
  | [] =>
      match pend with
      | [] => Some []
      | (off, k) :: r => Some ((if off =? col then [k] else []) ++ map snd r)
      end
  | td :: rest =>
      match flush pend col with
      | None => None
      | Some (ys, p, c) =>
          match span_attr a_colspan (fst td) with
          | None => None
          | Some w =>
              match merge_cells rest p (c + w) with
              | Some zs => Some (ys ++ td :: zs)
              | None => None
              end
          end
      end
  end.

(** rowiter.py:52-72, sorted_row_children *)
Definition sorted_row_children (row : elem) (l : alst) : option (list kid) :=
  merge_cells (kids_of t_td row) (map (fun '(n, k, _) => (n, k)) l) 0.

(** rowiter.py:107-117: store the cells with a rowspan; [None] is ValueError. *)
Fixpoint store_spans (tds : list kid) (col : Z) (l : alst) : option alst :=
  match tds with
  | [] => Some l
  | td :: r =>
      match span_attr a_rowspan (fst td) with
      | None => None
      | Some rs =>
          let l' := if 1 <? rs
                    then alst_insert l col (del_attr a_rowspan (fst td), snd td) rs
                    else l in
          match span_attr a_colspan (fst td) with
          | None => None
          | Some w => store_spans r (col + w) l'
          end
      end
  end.

(** A yielded row with the elements that follow it in its parent (used by the quirks in
    jsonspec/quirks/{mi,nvm}.py through [row.itersiblings()]; a rebuilt row has none). *)
Record yrow := mkY { y_row : elem; y_sibs : list kid }.

(** rowiter.py:85: the tr children having a td or th child, in document order. *)
Fixpoint select_rows (ks : list kid) : list yrow :=
  match ks with
  | [] => []
  | k :: r =>
      if seqb (e_tag (fst k)) t_tr
         && (match children t_td (fst k) with [] => false | _ => true end
             || contains_th (fst k))
      then mkY (fst k) r :: select_rows r
      else select_rows r
  end.

(** rowiter.py:90-122, the loop of row_iter.  The generator's result is the list of rows it
    yields and the exception that ends it, if any. *)
Fixpoint row_loop (rows : list yrow) (l : alst) : list yrow * option exn :=
  match rows with
  | [] => ([], None)
  | y :: rest =>
      let row := y_row y in
      if contains_th row then
        let '(ys, e) := row_loop rest l in (y :: ys, e)
      else
        let rebuilt :=
          match l with
          | [] => Some y
          | _ => match sorted_row_children row l with
                 | Some ks => Some (mkY (Elem (e_tag row) (e_attrs row) [] ks) [])
                 | None => None
                 end
          end in
        match rebuilt with
        | None => ([], Some EValueError)
        | Some y' =>
            match store_spans (kids_of t_td (y_row y')) 0 l with
            | None => ([], Some EValueError)
            | Some l' =>
                let '(ys, e) := row_loop rest (alst_count_decr l') in (y' :: ys, e)
            end
        end
  end.

(** rowiter.py:84-122, row_iter *)
Definition row_iter (tbl : elem) : list yrow * option exn :=
  row_loop (select_rows (e_kids tbl)) [].
