(** * DumpList: the tool gdxdump (src/tools/gdxdump/gdxdump.cpp), lists of labels and symbols *)

From Coq Require Import String.
From Verif Require Import Base Prim Values StrHash Strings AStream State FileImage ApiCore ApiWrite ApiRead Api Dump DumpData.
Open Scope Z_scope.
Open Scope list_scope.

(** common.cpp 44-65 (gdxDataTypStr). *)
Definition type_name (t : Z) : str :=
  if t =? 0 then s2z "Set" else if t =? 1 then s2z "Par" else if t =? 2 then s2z "Var" else if t =? 3 then s2z "Equ" else if t =? 4 then s2z "Alias" else s2z "Unknown".

Section Z.
Context (z : zlib).

(** 151-162: the lines for the labels [i], [i + 1], ... up to [k]; [fuel] is their number. *)
Fixpoint label_lines (csv : bool) (fuel : nat) (i k : Z) (st : gst) : outcome str :=
  match fuel with
  | O => Done []
  | S j =>
      do (r, _) <- exec z (gdxUMUelGet i) st ;;
      do t <- label_lines csv j (i + 1) k st ;;
      Done (s2z "  " ++ quoted (hd [] (r_strs r)) ++ (if csv then [ch_eol] else (if i <? k then s2z " ," else s2z " /;") ++ [ch_eol]) ++ t)
  end.
(** 139-163 (WriteUELTable). *)
Definition uel_table (csv : bool) (name : str) (st : gst) : outcome str :=
  do (r, _) <- exec z gdxSystemInfo st ;;
  let k := nth 1 (r_ints r) 0 in
  do t <- label_lines csv (Z.to_nat k) 1 k st ;;
  Done ((if csv then []
         else if 0 <? k then s2z "Set " ++ name ++ s2z " /" ++ [ch_eol]
         else s2z "$onEmpty" ++ [ch_eol] ++ s2z "Set " ++ name ++ s2z "(*) / /;" ++ [ch_eol] ++ s2z "$offEmpty" ++ [ch_eol]) ++ t).

(** 242-253: the domain as one text. *)
Definition too_long : str := s2z "Domain exceeds 63 characters".
Fixpoint domain_text (first : bool) (doms : list str) (acc : str) : str :=
  match doms with
  | [] => acc
  | d :: r => let acc := acc ++ (if first then [] else s2z ", ") ++ d in
              if 63 <? zlen acc then too_long else domain_text false r acc
  end.
(** 225-261 (WriteSymbolAsItem); the caller does not use the result. *)
Definition symbol_item (dominfo : bool) (n : Z) (st : gst) : outcome str :=
  do (r, _) <- exec z (gdxSymbolInfo n) st ;;
  let dim := nth 0 (r_ints r) 0 in
  let typ := nth 1 (r_ints r) 0 in
  do (rx, _) <- exec z (gdxSymbolInfoX n) st ;;
  let txt := hd [] (r_strs rx) in
  let front := [34] ++ hd [] (r_strs r) ++ [34; 46] ++ int_str dim ++ [46; 34] ++ type_name typ ++ [34] in
  if dominfo then
    do (rd, _) <- (if 0 <? dim then exec z (gdxSymbolGetDomainX n) st else Done (ret_s 0 [], st)) ;;
    Done (front ++ [46; 34] ++ domain_text true (r_strs rd) [] ++ [34])
  else
    let q := if existsb (fun c => c =? 34) txt then 39 else 34 in
    Done (front ++ match txt with [] => [] | _ => [32; q] ++ txt ++ [q] end).
(** 274-280: the lines for the symbols [n], [n + 1], ... up to [k]. *)
Fixpoint symbol_lines (dominfo : bool) (fuel : nat) (n k : Z) (st : gst) : outcome str :=
  match fuel with
  | O => Done []
  | S j =>
      do a <- symbol_item dominfo n st ;;
      do t <- symbol_lines dominfo j (n + 1) k st ;;
      Done (a ++ (if n <? k then [44] else []) ++ [ch_eol] ++ t)
  end.
(** 263-282 (WriteSymbolsAsSet). *)
Definition symbols_as_set (dominfo : bool) (st : gst) : outcome str :=
  do (r, _) <- exec z gdxSystemInfo st ;;
  let k := nth 0 (r_ints r) 0 in
  do t <- symbol_lines dominfo (Z.to_nat k) 1 k st ;;
  Done ((if dominfo
         then s2z "alias (Symbol, Dim, Type, Domain, *);" ++ [ch_eol] ++ s2z "set    gdxitemsDI(Symbol,Dim,Type,Domain)  Items in the GDX file /" ++ [ch_eol]
         else s2z "alias (Symbol, Dim, Type, *);" ++ [ch_eol] ++ s2z "set    gdxitems(Symbol,Dim,Type)  Items in the GDX file /" ++ [ch_eol]) ++ t ++ s2z "/;" ++ [ch_eol]).
End Z.
