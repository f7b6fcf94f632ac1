(** * DumpInfo: the tool gdxdump (src/tools/gdxdump/gdxdump.cpp), tables of the symbols *)

From Coq Require Import String.
From Verif Require Import Base Prim Values StrHash Strings AStream State FileImage ApiCore ApiWrite ApiRead Api Diff Dump DumpData DumpList DumpText.
Open Scope Z_scope.
Open Scope list_scope.

(** gdlib/strutilx.cpp 763-767 (PadRight), for widths up to 255. *)
Definition pad_right (w : Z) (s : str) : str := s ++ repeat 32 (Z.to_nat (w - zlen s)).
(** gdlib/strutilx.cpp 158-167 (IntegerWidth). *)
Definition int_width (n : Z) : Z := zlen (int_str n).

(** std::map::insert, with the order of short_string.cpp 173-175 ([Diff.str_before]); a key
    that is there already keeps its value. *)
Fixpoint map_insert (k : str) (v : Z) (l : list (str * Z)) : list (str * Z) :=
  match l with
  | [] => [(k, v)]
  | e :: r => if str_before k (fst e) then (k, v) :: l else if str_before (fst e) k then e :: map_insert k v r else l
  end.

Section Z.
Context (z : zlib).

(** 790-798: the symbols [n], [n + 1], ...; [c] is their number. *)
Fixpoint collect (c : nat) (n : Z) (st : gst) (sl : list (str * Z)) (w2 w3 : Z) : outcome (list (str * Z) * Z * Z) :=
  match c with
  | O => Done (sl, w2, w3)
  | S j =>
      do (r, _) <- exec z (gdxSymbolInfo n) st ;;
      do (rx, _) <- exec z (gdxSymbolInfoX n) st ;;
      let name := hd [] (r_strs r) in
      collect j (n + 1) st (map_insert name n sl) (if w2 <? zlen name then zlen name else w2) (Z.max w3 (int_width (nth 0 (r_ints rx) 0)))
  end.
(** 806-813: the lines of the table; [i] is N + 1. *)
Fixpoint info_lines (l : list (str * Z)) (i w1 w2 w3 : Z) (st : gst) : outcome str :=
  match l with
  | [] => Done []
  | (_, n) :: r =>
      do (a, _) <- exec z (gdxSymbolInfo n) st ;;
      do (b, _) <- exec z (gdxSymbolInfoX n) st ;;
      do t <- info_lines r (i + 1) w1 w2 w3 st ;;
      Done (pad_left w1 (int_str i) ++ [32] ++ pad_right w2 (hd [] (r_strs a)) ++ [32] ++ pad_left 3 (int_str (nth 0 (r_ints a) 0)) ++ [32] ++
            pad_left 4 (type_name (nth 1 (r_ints a) 0)) ++ [32] ++ pad_left w3 (int_str (nth 0 (r_ints b) 0)) ++ s2z "  " ++ hd [] (r_strs b) ++ [ch_eol] ++ t)
  end.
(** 781-814 (WriteSymbolInfo). *)
Definition symbol_table (st : gst) : outcome str :=
  do (r, _) <- exec z gdxSystemInfo st ;;
  let k := nth 0 (r_ints r) 0 in
  let w1 := int_width k in
  do (m, w3) <- collect (Z.to_nat k) 1 st [] (zlen (s2z "Symbol")) (zlen (s2z "Records")) ;;
  let '(sl, w2) := m in
  do t <- info_lines sl 1 w1 w2 w3 st ;;
  Done (pad_left w1 [32] ++ [32] ++ pad_right w2 (s2z "Symbol") ++ s2z " Dim Type " ++ pad_right w3 (s2z "Records") ++ s2z "  Explanatory text" ++ [ch_eol] ++ t).

(** 832-835. *)
Fixpoint collect_names (c : nat) (n : Z) (st : gst) (sl : list (str * Z)) : outcome (list (str * Z)) :=
  match c with
  | O => Done sl
  | S j => do (r, _) <- exec z (gdxSymbolInfo n) st ;; collect_names j (n + 1) st (map_insert (hd [] (r_strs r)) n sl)
  end.
(** 817: StrDInfo. *)
Definition domain_kind (c : Z) : str := nth (Z.to_nat c) [s2z "N/A"; s2z "None"; s2z "Relaxed"; s2z "Regular"] [].
(** 843-849: the names of the domain. *)
Fixpoint comma_names (l : list str) : str := match l with [] => [] | [a] => a | a :: r => a ++ s2z ", " ++ comma_names r end.
(** 836-853.  gdxSymbolGetDomainX answers with as many names as the symbol has dimensions. *)
Fixpoint domain_lines (l : list (str * Z)) (w1 : Z) (st : gst) : outcome str :=
  match l with
  | [] => Done []
  | (_, n) :: r =>
      do (a, _) <- exec z (gdxSymbolInfo n) st ;;
      do (b, _) <- exec z (gdxSymbolGetDomainX n) st ;;
      do t <- domain_lines r w1 st ;;
      Done (pad_left w1 (int_str n) ++ [32] ++ pad_left 5 (type_name (nth 1 (r_ints a) 0)) ++ [32] ++ pad_left 7 (domain_kind (r_code b)) ++ [32] ++ hd [] (r_strs a) ++
            (if 0 <? nth 0 (r_ints a) 0 then [40] ++ comma_names (r_strs b) ++ [41] else []) ++ [ch_eol] ++ t)
  end.
(** 816-854 (WriteDomainInfo). *)
Definition domain_table (st : gst) : outcome str :=
  do (r, _) <- exec z gdxSystemInfo st ;;
  let k := nth 0 (r_ints r) 0 in
  let w1 := Z.max (int_width k) 4 in
  do sl <- collect_names (Z.to_nat k) 1 st [] ;;
  do t <- domain_lines sl w1 st ;;
  Done (pad_left w1 (s2z "SyNr") ++ s2z "  Type  DomInf Symbol" ++ [ch_eol] ++ t).
End Z.
