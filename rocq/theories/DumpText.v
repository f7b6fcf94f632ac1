(** * DumpText: the tool gdxdump (src/tools/gdxdump/gdxdump.cpp), the list of element texts *)

From Coq Require Import String.
From Verif Require Import Base Prim Values StrHash Strings AStream State FileImage ApiCore ApiWrite ApiRead Api Dump DumpData.
Open Scope Z_scope.
Open Scope list_scope.

(** gdlib/strutilx.cpp 769-773 (PadLeft), for widths up to 255. *)
Definition pad_left (w : Z) (s : str) : str := repeat 32 (Z.to_nat (w - zlen s)) ++ s.

Section Z.
Context (z : zlib).

(** 863, 866, 870: is there a text with the number [n]? *)
Definition has_elem_text (n : Z) (st : gst) : outcome bool :=
  do (r, _) <- exec z (gdxGetElemText n) st ;; Done (r_code r =? 1).
(** 868-876: the binary search; [fuel] bounds the number of steps. *)
Fixpoint search (fuel : nat) (lo hi : Z) (st : gst) : outcome Z :=
  match fuel with
  | O => UB
  | S k =>
      if lo + 1 <? hi then
        let mid := lo + (hi - lo) / 2 in
        do b <- has_elem_text mid st ;;
        if b then search k mid hi st else search k lo mid st
      else Done lo
  end.
(** 862-878: the number of texts.  A failed assertion counts as undefined behaviour. *)
Definition text_count (st : gst) : outcome Z :=
  do b <- has_elem_text 0 st ;;
  if negb b then UB else
  do b <- has_elem_text INT_MAX st ;;
  if b then UB else
  do lo <- search 32 0 INT_MAX st ;;
  Done (lo + 1).

(** 891-894: the records of a set; [fuel] bounds the number of calls. *)
Fixpoint highest_record (fuel : nat) (m : Z) (st : gst) : outcome (Z * gst) :=
  match fuel with
  | O => UB
  | S k =>
      do (r, st) <- exec z gdxDataReadRaw st ;;
      if r_code r =? 0 then Done (m, st)
      else match d_round (nth 0 (r_vals r) 0) with
           | Some i => highest_record k (Z.max m i) st
           | None => UB
           end
  end.
(** 883-896: the symbols [n], [n + 1], ...; [k] is their number. *)
Fixpoint highest_symbol (k fuel : nat) (n m : Z) (st : gst) : outcome (Z * gst) :=
  match k with
  | O => Done (m, st)
  | S k =>
      do (r, _) <- exec z (gdxSymbolInfo n) st ;;
      if negb (nth 1 (r_ints r) 0 =? dt_set) then highest_symbol k fuel (n + 1) m st
      else
        do (_, st) <- exec z (gdxDataReadRawStart n) st ;;
        do (m, st) <- highest_record fuel m st ;;
        do (_, st) <- exec z gdxDataReadDone st ;;
        highest_symbol k fuel (n + 1) m st
  end.
(** 880-896: the loop runs from 0 to the number of symbols minus one. *)
Definition highest_text (fuel : nat) (st : gst) : outcome (Z * gst) :=
  do (r, _) <- exec z gdxSystemInfo st ;;
  highest_symbol (Z.to_nat (nth 0 (r_ints r) 0)) fuel 0 0 st.

(** 901-908: the texts [i], [i + 1], ...; [k] is their number. *)
Fixpoint text_lines (k : nat) (i : Z) (st : gst) : outcome str :=
  match k with
  | O => Done []
  | S k =>
      do (r, _) <- (if i =? 0 then Done (ret_s 1 [[]], st) else exec z (gdxGetElemText i) st) ;;
      do t <- text_lines k (i + 1) st ;;
      Done (pad_left 6 (int_str i) ++ s2z "   " ++ [34] ++ hd [] (r_strs r) ++ [34; ch_eol] ++ t)
  end.
(** 880-909, given the number [n] of texts. *)
Definition text_table (n : Z) (fuel : nat) (st : gst) : outcome (str * gst) :=
  do (m, st) <- highest_text fuel st ;;
  do t <- text_lines (Z.to_nat n) 0 st ;;
  Done (s2z "Count of set text strings in GDX: " ++ int_str n ++ [ch_eol] ++ s2z "max 0-based textIdx found in GDX: " ++ int_str m ++ [ch_eol] ++ s2z "   idx   text" ++ [ch_eol] ++ t, st).
(** 856-909 (WriteSetText). *)
Definition set_texts (fuel : nat) (st : gst) : outcome (str * gst) :=
  do n <- text_count st ;; text_table n fuel st.
End Z.
