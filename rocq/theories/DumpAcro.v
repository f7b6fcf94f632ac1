(** * DumpAcro: the tool gdxdump (src/tools/gdxdump/gdxdump.cpp), declarations of acronyms *)

From Coq Require Import String.
From Verif Require Import Base Prim Values StrHash Strings AStream State FileImage ApiCore ApiWrite ApiRead Api Dump DumpData DumpDecl.
Open Scope Z_scope.
Open Scope list_scope.

Section Z.
Context (z : zlib).

(** 992-999: one pass of the loop. *)
Definition acronym_line (n : Z) (st : gst) : outcome str :=
  do (r, _) <- exec z (gdxAcronymGetInfo n) st ;;
  let text := nth 1 (r_strs r) [] in
  Done (s2z "Acronym " ++ hd [] (r_strs r) ++ (match text with [] => [] | _ => q_text true text end) ++ s2z ";" ++ [ch_eol]).
(** 992: the loop; [c] passes are left. *)
Fixpoint acronym_lines (c : nat) (n : Z) (st : gst) : outcome str :=
  match c with
  | O => Done []
  | S c' => do a <- acronym_line n st ;; do b <- acronym_lines c' (n + 1) st ;; Done (a ++ b)
  end.
(** 982-1001 (WriteAcronyms).  The numbers in the loop are 0, 1, ..., Cnt - 1. *)
Definition write_acronyms (st : gst) : outcome str :=
  do (r, _) <- exec z gdxAcronymCount st ;;
  let cnt := r_code r in
  if cnt <=? 0 then Done [] else
  do t <- acronym_lines (Z.to_nat cnt) 0 st ;;
  Done ([ch_eol] ++ t).
End Z.
