(** * DumpData: the tool gdxdump (src/tools/gdxdump/gdxdump.cpp), data statements

    Modelled are the functions behind Format=normal with NoHeader: QQ, WriteQuotedCommon,
    WriteQUELText, WriteUEL and WriteSymbol.  The declaration in front of the data (436-480)
    is left out.  Text of numbers: see [Dump]. *)

From Coq Require Import String.
From Verif Require Import Base Prim Values StrHash Strings AStream State FileImage ApiCore ApiWrite ApiRead Api Dump.
Open Scope Z_scope.
Open Scope list_scope.

(** 62-64 (QQ): the kind of quotes for a text. *)
Definition qq (s : str) : Z := if existsb (fun c => c =? 39) s then 34 else 39.
(** 134-137 (WriteUEL). *)
Definition quoted (s : str) : str := qq s :: s ++ [qq s].
(** 93-108 (WriteQuotedCommon), 128-132 (WriteQUELText): blank , ; / $ = * and two periods. *)
Definition special_char (c : Z) : bool := existsb (fun d => c =? d) [32; 44; 59; 47; 36; 61; 42].
Fixpoint needs_quotes (s : str) : bool :=
  match s with
  | [] => false
  | c :: r => special_char c || ((c =? 46) && match r with d :: _ => d =? 46 | [] => false end) || needs_quotes r
  end.
Definition quel_text (s : str) : str := 32 :: (if needs_quotes s then quoted s else s).

(** common.cpp 76-91 (valTypStr). *)
Definition field_name (i : nat) : str := nth i [s2z "L"; s2z "M"; s2z "LO"; s2z "UP"; s2z "SCALE"] [].

(** 405-435: the default values; a type of variable outside the table counts as free, a type
    of equation as =e=. *)
Definition dump_defaults (typ uinfo : Z) : list Z :=
  if typ =? dt_var then def_var (if (uinfo <? 0) || (9 <? uinfo) then 5 else uinfo)
  else if typ =? dt_equ then def_equ (53 + (if (uinfo <? 0) || (6 <? uinfo) then 0 else uinfo))
  else [0; 0; 0; 0; 0].

Section Z.
Context (z : zlib) (num : Z -> str) (filt : bool) (o : dopts).

(** 295-299: a value that is left out. *)
Definition left_out (typ dim : Z) (defs vals : list Z) (i : nat) : bool :=
  negb ((dim =? 0) && (typ =? dt_par)) && negb (typ =? dt_set) && (filt && feqb (nth i vals 0) (nth i defs 0)) &&
  (negb (typ =? dt_equ) || (negb (Nat.eqb i 2) && negb (Nat.eqb i 3))).
(** 301-310: what stands between two items. *)
Definition between (typ dim : Z) : str := s2z ", " ++ (if negb (is_ve typ) || negb (dim =? 0) then [ch_eol] else []).

(** 332-360: what follows the labels of an item. *)
Definition item_value (typ dim : Z) (vals : list Z) (i : nat) (st : gst) : outcome str :=
  if typ =? dt_set then
    let x := nth 0 vals 0 in
    if feqb x d_zero then Done []
    else match d_round x with
         | Some n => do (r, _) <- exec z (gdxGetElemText n) st ;; Done (quel_text (hd [] (r_strs r)))
         | None => UB
         end
  else if typ =? dt_par then do v <- wr_val z num o (nth i vals 0) st ;; Done (32 :: v)
  else if is_ve typ then
    do v <- wr_val z num o (nth i vals 0) st ;;
    Done ((if 0 <? dim then [o_delim o] else []) ++ field_name i ++ [32] ++ v)
  else Done (s2z "Oops").
(** 294-364 (WriteItem), without what separates it from the item before. *)
Definition item (typ dim : Z) (keys vals : list Z) (i : nat) (st : gst) : outcome str :=
  do ls <- omap (fun k => uel_string z k st) keys ;;
  do v <- item_value typ dim vals i st ;;
  Done (join (o_delim o) (List.map quoted ls) ++ v).
(** 209-219: BadUELs. *)
Definition bad_uels (keys : list Z) (st : gst) : Z :=
  zlen (filter (fun k => match exec z (gdxUMUelGet k) st with Done (r, _) => r_code r =? 0 | UB => false end) keys).

(** 516-527: the items of a record. *)
Fixpoint items (typ dim : Z) (defs keys vals : list Z) (fs : list nat) (first : bool) (st : gst) : outcome (str * bool * Z) :=
  match fs with
  | [] => Done ([], first, 0)
  | i :: fs' =>
      if left_out typ dim defs vals i then items typ dim defs keys vals fs' first st
      else do a <- item typ dim keys vals i st ;;
           do (b, first', n) <- items typ dim defs keys vals fs' false st ;;
           Done ((if first then [] else between typ dim) ++ a ++ b, first', bad_uels keys st + n)
  end.
Definition fields_of (typ : Z) : list nat := if is_ve typ then [0; 1; 2; 3; 4]%nat else [0%nat].

(** 499-532: the loop over the records; [fuel] bounds the number of calls. *)
Fixpoint data_lines (fuel : nat) (typ dim : Z) (defs : list Z) (first : bool) (st : gst) : outcome (str * Z * gst) :=
  match fuel with
  | O => UB
  | S k =>
      do (r, st) <- exec z gdxDataReadRaw st ;;
      if r_code r =? 0 then Done ([], 0, st)
      else do (a, first', n) <- items typ dim defs (tl (r_ints r)) (r_vals r) (fields_of typ) first st ;;
           do (b, m, st) <- data_lines k typ dim defs first' st ;;
           Done (a ++ b, n + m, st)
  end.

(** 366-374 (WriteComments). *)
Fixpoint comment_lines (fuel : nat) (n k : Z) (st : gst) : outcome str :=
  match fuel with
  | O => UB
  | S j => do (r, _) <- exec z (gdxSymbolGetComment n k) st ;;
           if r_code r =? 0 then Done []
           else do t <- comment_lines j n (k + 1) st ;; Done (s2z "* " ++ hd [] (r_strs r) ++ [ch_eol] ++ t)
  end.

(** 284-557 (WriteSymbol) with ShowData and without ShowHdr. *)
Definition data_symbol (fuel : nat) (n : Z) (st : gst) : outcome (str * gst) :=
  do (rs, _) <- exec z (gdxSymbolInfo n) st ;;
  let dim := nth 0 (r_ints rs) 0 in
  let typ := nth 1 (r_ints rs) 0 in
  do (rx, _) <- exec z (gdxSymbolInfoX n) st ;;
  let count := nth 0 (r_ints rx) 0 in
  let uinfo := nth 1 (r_ints rx) 0 in
  if count =? 0 then
    if (dim =? 0) && (typ =? dt_par) then
      do cs <- comment_lines fuel n 1 st ;; Done (s2z " / 0.0 /;" ++ [ch_eol] ++ cs, st)
    else Done ([], st)
  else
    do cs <- comment_lines fuel n 1 st ;;
    do (_, st) <- exec z (gdxDataReadRawStart n) st ;;
    do (t, bad, st) <- data_lines fuel typ dim (dump_defaults typ uinfo) true st ;;
    do (_, st) <- exec z gdxDataReadDone st ;;
    Done (cs ++ t ++ (if 0 <? bad then s2z "**** " ++ int_str bad ++ s2z " reference(s) to unique elements without a string representation" else []), st).
End Z.
