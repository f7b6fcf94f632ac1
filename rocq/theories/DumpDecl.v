(** * DumpDecl: the tool gdxdump (src/tools/gdxdump/gdxdump.cpp), declarations

    WriteSymbol for Format=normal with NoData: the declaration of a symbol and the line that
    loads its data. *)

From Coq Require Import String.
From Verif Require Import Base Prim Values StrHash Strings AStream State FileImage ApiCore ApiWrite ApiRead Api Dump DumpData.
Open Scope Z_scope.
Open Scope list_scope.

(** 93-108 (WriteQuotedCommon), 111-124 (WriteQText): comma, semicolon, slash, dollar, equals, quotes and two periods.  The loop
    skips the blanks in front, which are none of these. *)
Definition odd_char (c : Z) : bool := existsb (fun d => c =? d) [44; 59; 47; 36; 61; 39; 34].
Fixpoint odd_text (s : str) : bool :=
  match s with
  | [] => false
  | c :: r => odd_char c || ((c =? 46) && match r with d :: _ => d =? 46 | [] => false end) || odd_text r
  end.
(** 114-122: the first character that is no blank is an open parenthesis. *)
Fixpoint opens (s : str) : bool := match s with [] => false | c :: r => if c =? 32 then opens r else c =? 40 end.
(** 111-125 (WriteQText). *)
Definition q_text (check : bool) (s : str) : str := 32 :: (if (check && opens s) || odd_text s then quoted s else s).

(** common.cpp 67-74 (gdxDataTypStrL), generated/gclgms.h 140-146. *)
Definition long_type (t : Z) : str := nth (Z.to_nat t) [s2z "Set"; s2z "Parameter"; s2z "Variable"; s2z "Equation"; s2z "Alias"] (s2z "Unknown").
(** common.cpp 93-113 (varTypStr). *)
Definition var_type (u : Z) : str :=
  nth (Z.to_nat u) [s2z "unknown "; s2z "binary  "; s2z "integer "; s2z "positive"; s2z "negative"; s2z "free    "; s2z "sos1    "; s2z "sos2    "; s2z "semicont"; s2z "semiint "] (s2z "Unknown").
(** 405-435: SubTypeName. *)
Definition sub_type (typ uinfo : Z) : str :=
  if typ =? dt_set then (if uinfo =? 1 then s2z "Singleton" else [])
  else if typ =? dt_var then let u := if (uinfo <? 0) || (9 <? uinfo) then 5 else uinfo in if u =? 0 then [] else var_type u
  else if typ =? dt_equ then let u := if (uinfo <? 0) || (6 <? uinfo) then 0 else uinfo in if u =? 6 then s2z "Logic" else []
  else [].
(** 437-444. *)
Definition type_front (typ dim uinfo : Z) : str :=
  if (dim =? 0) && (typ =? dt_par) then s2z "Scalar"
  else (match sub_type typ uinfo with [] => [] | s => s ++ [32] end) ++ long_type typ.

Section Z.
Context (z : zlib).

(** 459-467: the names of the domain. *)
Fixpoint dom_ids (nrs : list Z) (st : gst) : outcome (list str) :=
  match nrs with
  | [] => Done []
  | k :: r =>
      do (a, _) <- (if k <=? 0 then Done (ret_s 0 [s2z "*"], st) else exec z (gdxSymbolInfo k) st) ;;
      do l <- dom_ids r st ;;
      Done (hd [] (r_strs a) :: l)
  end.
(** 457-476: the domain; gdxSymbolGetDomain answers with as many numbers as the symbol has
    dimensions. *)
Definition domain_part (n dim : Z) (st : gst) : outcome str :=
  if 1 <=? dim then
    do (r, _) <- exec z (gdxSymbolGetDomain n) st ;;
    do l <- dom_ids (r_ints r) st ;;
    Done ([40] ++ join 44 l ++ [41])
  else Done [].
(** 284-557 (WriteSymbol) with ShowHdr and without ShowData. *)
Definition declaration (fuel : nat) (n : Z) (st : gst) : outcome str :=
  do (rs, _) <- exec z (gdxSymbolInfo n) st ;;
  let dim := nth 0 (r_ints rs) 0 in
  let typ := nth 1 (r_ints rs) 0 in
  let id := hd [] (r_strs rs) in
  do (rx, _) <- exec z (gdxSymbolInfoX n) st ;;
  let count := nth 0 (r_ints rx) 0 in
  let uinfo := nth 1 (r_ints rx) 0 in
  let text := hd [] (r_strs rx) in
  do cs <- comment_lines z fuel n 1 st ;;
  if typ =? dt_alias then
    do (ra, _) <- (if uinfo =? 0 then Done (ret_s 0 [s2z "*"], st) else exec z (gdxSymbolInfo uinfo) st) ;;
    Done ([ch_eol] ++ s2z "Alias (" ++ id ++ s2z ", " ++ hd [] (r_strs ra) ++ s2z ");" ++ [ch_eol] ++ cs)
  else
    do d <- domain_part n dim st ;;
    Done ([ch_eol] ++ type_front typ dim uinfo ++ [32] ++ id ++ d ++ (match text with [] => [] | _ => q_text (dim =? 0) text end) ++ cs ++
          (if count =? 0 then s2z " ; !!empty" ++ [ch_eol] ++ s2z "$loadDC " ++ id ++ s2z " !!empty" ++ [ch_eol]
           else s2z " ;" ++ [ch_eol] ++ s2z "$loadDC " ++ id ++ [ch_eol])).
End Z.
