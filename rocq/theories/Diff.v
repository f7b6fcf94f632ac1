(** * Diff: the comparison of two symbols by the tool gdxdiff (src/tools/gdxdiff/gdxdiff.cpp)

    The tool opens two files for reading and a third one for writing, and compares symbols of
    the same name record by record.  It is a client of the API: everything it learns or writes
    goes through calls of [Api].  The records of the two symbols come from two objects of
    their own; they are given here as the lists that successive calls of gdxDataReadMap (or
    gdxDataReadRaw, option MatrixFile) deliver.  Messages to the console are left out. *)

From Coq Require Import String.
From Verif Require Import Base Prim Values StrHash Strings AStream State FileImage ApiCore ApiRead Api.
Open Scope Z_scope.
Open Scope list_scope.

(** 61-72, 700-980: the options of a run. *)
Record dopts := mkDopts {
  o_abs : Z;   (* EpsAbsolute *)
  o_rel : Z;   (* EpsRelative *)
  o_fields : list Z;   (* ActiveFields *)
  o_only : option Z;   (* fldOnlyFld, if fldOnly == fld_yes *)
  o_diff : bool;   (* DiffOnly *)
  o_text : bool;   (* CompSetText *)
  o_def : bool;   (* ShowDefRec *)
  o_doms : bool   (* CompDomains *)
}.
(** 806-835: without options. *)
Definition no_options : dopts := mkDopts 0 0 [0; 1; 2; 3; 4] None false true false false.

(** gdxdiff.hpp 36-47 (StatusCode). *)
Inductive status := sc_same | sc_notf1 | sc_notf2 | sc_dim | sc_typ | sc_key | sc_data | sc_dim10 | sc_dim10_diff | sc_domain.
(** 687-690: what gets into the summary. *)
Definition differs (s : status) : bool := match s with sc_same | sc_dim10 => false | _ => true end.

Definition c_ins1 : str := s2z "ins1".
Definition c_ins2 : str := s2z "ins2".
Definition c_dif1 : str := s2z "dif1".
Definition c_dif2 : str := s2z "dif2".
Definition field_name (t : Z) : str :=
  if t =? 0 then s2z "Level" else if t =? 1 then s2z "Marginal" else if t =? 2 then s2z "Lower" else if t =? 3 then s2z "Upper" else s2z "Scale".

(** ** What is asked of an object that reads *)

(** The class of a value (gdxMapValue), the name of an acronym (gdxAcronymName), an element
    text (gdxGetElemText). *)
Record side := mkSide { s_class : Z -> Z; s_acro : Z -> outcome (option str); s_text : Z -> outcome str }.
Definition side_of (z : zlib) (st : gst) : side :=
  mkSide (fun v => match exec z (gdxMapValue v) st with Done (r, _) => hd 5 (r_ints r) | UB => 5 end)
         (fun v => do (r, _) <- exec z (gdxAcronymName v) st ;; Done (if r_code r =? 0 then None else Some (hd [] (r_strs r))))
         (fun n => do (r, _) <- exec z (gdxGetElemText n) st ;; Done (hd [] (r_strs r))).

(** ** The comparison of two values: 295-337 (DoublesEqual) *)

Definition fabs (x : Z) : Z := x mod 2^63.
Definition sv_normal : Z := 5.
Definition sv_valeps : Z := 4.

(** 320-329: two ordinary numbers. *)
Definition numbers_equal (o : dopts) (v1 v2 : Z) : bool :=
  let d := fabs (fsub v1 v2) in
  if fleb d (o_abs o) then true
  else if fltb d_zero (o_rel o) then
    fleb (fdiv d (fadd d_one (if fleb (fabs v1) (fabs v2) then fabs v1 else fabs v2))) (o_rel o)
  else false.
(** 332, 336: an ordinary number and the special value eps. *)
Definition almost_zero (o : dopts) (v : Z) : bool := fltb d_zero (o_abs o) && fleb (fabs v) (o_abs o).

Definition doubles_equal (o : dopts) (s1 s2 : side) (v1 v2 : Z) : outcome bool :=
  let c1 := s_class s1 v1 in
  let c2 := s_class s2 v2 in
  if c1 =? sv_normal then
    if c2 =? sv_normal then
      do a1 <- s_acro s1 v1 ;;
      match a1 with
      | None => Done (numbers_equal o v1 v2)
      | Some n1 =>
          do a2 <- s_acro s2 v2 ;;
          match a2 with
          | None => Done (numbers_equal o v1 v2)
          | Some n2 => Done (str_eqb (upper n1) (upper n2))
          end
      end
    else Done ((c2 =? sv_valeps) && almost_zero o v1)
  else
    if c2 =? sv_normal then Done ((c1 =? sv_valeps) && almost_zero o v2)
    else Done (c1 =? c2).

(** 345-350, 437-442: the loop over the fields of a variable or an equation. *)
Fixpoint fields_equal (o : dopts) (s1 s2 : side) (fs : list Z) (v1 v2 : list Z) : outcome bool :=
  match fs with
  | [] => Done true
  | t :: fs' =>
      if existsb (Z.eqb t) (o_fields o) then
        match znth v1 t, znth v2 t with
        | Some x, Some y => do e <- doubles_equal o s1 s2 x y ;; if e then fields_equal o s1 s2 fs' v1 v2 else Done false
        | _, _ => UB
        end
      else fields_equal o s1 s2 fs' v1 v2
  end.
Definition all_fields : list Z := [0; 1; 2; 3; 4].

Definition is_varequ (typ : Z) : bool := (typ =? dt_var) || (typ =? dt_equ).

(** 339-351: the values of two records of a parameter, variable or equation. *)
Definition field_equal (o : dopts) (s1 s2 : side) (t : Z) (v1 v2 : list Z) : outcome bool :=
  match znth v1 t, znth v2 t with Some x, Some y => doubles_equal o s1 s2 x y | _, _ => UB end.
Definition values_equal (o : dopts) (s1 s2 : side) (typ : Z) (v1 v2 : list Z) : outcome bool :=
  if typ =? dt_par then field_equal o s1 s2 0 v1 v2
  else match o_only o with
       | Some t => field_equal o s1 s2 t v1 v2
       | None => fields_equal o s1 s2 all_fields v1 v2
       end.
(** 386-400: the texts of two elements of a set. *)
Definition text_of (s : side) (v : list Z) : outcome str :=
  match v with
  | x :: _ => match d_round x with Some n => if n =? 0 then Done [] else s_text s n | None => UB end
  | [] => UB
  end.

(** 572-580, generated/gclgms.h 189-212: the default record; the type of file 1 is the index
    into an array of ten or seven rows. *)
Definition def_row (t : Z) : list Z :=
  if t =? 1 then [0; 0; 0; d_one; d_one] else if t =? 4 then [0; 0; SV_MINF; 0; d_one] else if t =? 5 then [0; 0; SV_MINF; SV_PINF; d_one]
  else if t =? 0 then [0; 0; 0; 0; d_one] else if 8 <=? t then [0; 0; d_one; SV_PINF; d_one] else [0; 0; 0; SV_PINF; d_one].
Definition equ_row (t : Z) : list Z :=
  if (t =? 1) || (t =? 5) then [0; 0; 0; SV_PINF; d_one] else if t =? 2 then [0; 0; SV_MINF; 0; d_one] else if t =? 3 then [0; 0; SV_MINF; SV_PINF; d_one]
  else [0; 0; 0; 0; d_one].
Definition def_values (typ uinfo : Z) : outcome (list Z) :=
  if typ =? dt_var then (if (0 <=? uinfo) && (uinfo <? 10) then Done (def_row uinfo) else UB)
  else if typ =? dt_equ then (if (0 <=? uinfo) && (uinfo <? 7) then Done (equ_row uinfo) else UB)
  else Done [0; 0; 0; 0; 0].

(** 422-445: a record that only one file has is left out if it has the default values. *)
Definition is_default (o : dopts) (s1 s2 : side) (typ : Z) (def v : list Z) : outcome bool :=
  if typ =? dt_par then match v with x :: _ => doubles_equal o s1 s2 x 0 | [] => UB end
  else if is_varequ typ then fields_equal o s1 s2 all_fields v def
  else Done false.

(** ** The object that writes the file of differences *)

(** [x_calls], [x_rs]: the calls made on it and their answers. *)
Record dst := mkDst { x_g : gst; x_calls : list call; x_rs : list resp; x_reg : bool; x_open : bool; x_stat : status }.
Definition set_x_reg (v : bool) (d : dst) : dst := mkDst (x_g d) (x_calls d) (x_rs d) v (x_open d) (x_stat d).
Definition set_x_open (v : bool) (d : dst) : dst := mkDst (x_g d) (x_calls d) (x_rs d) (x_reg d) v (x_stat d).
Definition set_x_stat (v : status) (d : dst) : dst := mkDst (x_g d) (x_calls d) (x_rs d) (x_reg d) (x_open d) v.

Section Compare.
Context (z : zlib) (o : dopts) (s1 s2 : side).
(** The table of labels and how many of them are registered in the file of differences. *)
Context (table : list str) (maxuel : nat).
(** Name, dimension, type and subtype of the symbol. *)
Context (name : str) (dim typ uinfo : Z).

Definition tell (c : call) (d : dst) : outcome (resp * dst) :=
  do (r, g) <- exec z c (x_g d) ;; Done (r, mkDst g (x_calls d ++ [c]) (x_rs d ++ [r]) (x_reg d) (x_open d) (x_stat d)).
Definition tell_ (c : call) (d : dst) : outcome dst := do (_, d) <- tell c d ;; Done d.
Fixpoint tells (cs : list call) (d : dst) : outcome dst :=
  match cs with [] => Done d | c :: cs' => do d <- tell_ c d ;; tells cs' d end.

(** 157-174 (RegisterDiffUELs). *)
Definition register_calls : list call := gdxUELRegisterStrStart :: List.map gdxUELRegisterStr (firstn maxuel table) ++ [gdxUELRegisterDone].
Definition register_uels (d : dst) : outcome dst :=
  if x_reg d then Done d else do d <- tells register_calls d ;; Done (set_x_reg true d).

(** 184-204 (CheckSymbOpen). *)
Definition start_call : call :=
  match o_only o with
  | Some t => if is_varequ typ then gdxDataWriteStrStart name (s2z "Differences Field = " ++ field_name t) (dim + 1) dt_par 0
              else gdxDataWriteStrStart name (s2z "Differences") (dim + 1) typ uinfo
  | None => if o_diff o && is_varequ typ then gdxDataWriteStrStart name (s2z "Differences Only") (dim + 2) dt_par 0
            else gdxDataWriteStrStart name (s2z "Differences") (dim + 1) typ uinfo
  end.
Definition check_open (d : dst) : outcome (bool * dst) :=
  do d <- register_uels d ;;
  let d := match x_stat d with sc_dim10 => set_x_stat sc_dim10_diff d | _ => d end in
  match x_stat d with
  | sc_dim10_diff => Done (x_open d, d)
  | _ => if x_open d then Done (true, d) else do d <- tell_ start_call d ;; Done (true, set_x_open true d)
  end.
(** 206-213 (SymbClose). *)
Definition symb_close (d : dst) : outcome dst :=
  if x_open d then tell_ gdxDataWriteDone (set_x_open false d) else Done d.

(** 226-233: the labels of a record.  The array has 20 rows (237-243). *)
Definition key_label (k : Z) : outcome str :=
  if k <? zlen table then match znth table k with Some s => Done s | None => UB end else Done (s2z "L__" ++ int_str k).
Fixpoint key_labels (f : Z -> outcome str) (ks : list Z) : outcome (list str) :=
  match ks with [] => Done [] | k :: ks' => do s <- f k ;; do l <- key_labels f ks' ;; Done (s :: l) end.

(** 215-260 (WriteDiff). *)
Definition write_diff (act : str) (fld : str) (keys vals : list Z) (d : dst) : outcome dst :=
  do d <- register_uels d ;;
  do ls <- key_labels key_label keys ;;
  let ls := if o_diff o && is_varequ typ then ls ++ [fld; act] else ls ++ [act] in
  if 20 <? zlen ls then UB
  else
    do vals <- match o_only o with
               | Some t => if is_varequ typ then match znth vals t with Some x => Done [x] | None => UB end else Done vals
               | None => Done vals
               end ;;
    tell_ (gdxDataWriteStr ls vals) d.
(** 262-278 (WriteSetDiff). *)
Definition write_set_diff (act : str) (keys : list Z) (text : str) (d : dst) : outcome dst :=
  do d <- register_uels d ;;
  do ls <- key_labels (fun k => match znth table k with Some s => Done s | None => UB end) keys ;;
  if 20 <? zlen (ls ++ [act]) then UB
  else
    do (r, d) <- tell (gdxAddSetText text) d ;;
    tell_ (gdxDataWriteStr (ls ++ [act]) [fofZ (hd 0 (r_ints r))]) d.

(** 362-380: both values of a record; under DiffOnly one line for each field that differs. *)
Fixpoint write_fields (fs : list Z) (keys v1 v2 : list Z) (d : dst) : outcome dst :=
  match fs with
  | [] => Done d
  | t :: fs' =>
      if existsb (Z.eqb t) (o_fields o) then
        match znth v1 t, znth v2 t with
        | Some x, Some y =>
            do e <- doubles_equal o s1 s2 x y ;;
            if e then write_fields fs' keys v1 v2 d
            else
              do d <- write_diff c_dif1 (field_name t) keys [x] d ;;
              do d <- write_diff c_dif2 (field_name t) keys [y] d ;;
              write_fields fs' keys v1 v2 d
        | _, _ => UB
        end
      else write_fields fs' keys v1 v2 d
  end.
(** 339-384 (CheckParDifference). *)
Definition check_par (keys v1 v2 : list Z) (d : dst) : outcome (bool * dst) :=
  do e <- values_equal o s1 s2 typ v1 v2 ;;
  if e then Done (true, d)
  else
    do (op, d) <- check_open d ;;
    if negb op then Done (false, d)
    else if o_diff o && is_varequ typ then do d <- write_fields all_fields keys v1 v2 d ;; Done (false, d)
    else
      do d <- write_diff c_dif1 [] keys v1 d ;;
      do d <- write_diff c_dif2 [] keys v2 d ;;
      Done (false, d).
(** 386-421 (CheckSetDifference). *)
Definition check_set (keys v1 v2 : list Z) (d : dst) : outcome (bool * dst) :=
  do t1 <- text_of s1 v1 ;;
  do t2 <- text_of s2 v2 ;;
  if str_eqb t1 t2 then Done (true, d)
  else
    do (op, d) <- check_open d ;;
    if negb op then Done (false, d)
    else
      do d <- write_set_diff c_dif1 keys t1 d ;;
      do d <- write_set_diff c_dif2 keys t2 d ;;
      Done (false, d).

(** 480-489: under DiffOnly one line for each active field. *)
Fixpoint insert_fields (act : str) (fs : list Z) (keys v : list Z) (d : dst) : outcome dst :=
  match fs with
  | [] => Done d
  | t :: fs' =>
      if existsb (Z.eqb t) (o_fields o) then
        match znth v t with
        | Some x => do d <- write_diff act (field_name t) keys [x] d ;; insert_fields act fs' keys v d
        | None => UB
        end
      else insert_fields act fs' keys v d
  end.
(** 423-491 (ShowInsert); [s] is the side that has the record. *)
Definition show_insert (act : str) (s : side) (def : list Z) (keys v : list Z) (d : dst) : outcome dst :=
  do e <- is_default o s1 s2 typ def v ;;
  if e && negb (o_def o) then Done d
  else
    let d := match x_stat d with sc_same => set_x_stat sc_key d | sc_dim10 => set_x_stat sc_dim10_diff d | _ => d end in
    match x_stat d with
    | sc_dim10_diff => Done d
    | _ =>
        do (op, d) <- check_open d ;;
        if negb op then Done d
        else
          do (v, d) <- (match v with
                        | x :: rest =>
                            if (typ =? dt_set) && negb (feqb x d_zero) then
                              match d_round x with
                              | None => UB
                              | Some n =>
                                  do t <- s_text s n ;;
                                  do (r, d) <- tell (gdxAddSetText t) d ;;
                                  Done (fofZ (hd 0 (r_ints r)) :: rest, d)
                              end
                            else Done (v, d)
                        | [] => UB
                        end) ;;
          if o_diff o && is_varequ typ then insert_fields act all_fields keys v d
          else write_diff act [] keys v d
    end.

(** 609-617: C, the difference of the first indices that differ. *)
Fixpoint key_order (k1 k2 : list Z) : outcome Z :=
  match k1, k2 with
  | a :: k1', b :: k2' => if a =? b then key_order k1' k2' else if (- 2^31 <=? a - b) && (a - b <? 2^31) then Done (a - b) else UB
  | _, _ => Done 0
  end.
(** 618-634: records with the same indices. *)
Definition both (k v1 v2 : list Z) (d : dst) : outcome dst :=
  do (e, d) <- (if typ =? dt_set then (if o_text o then check_set k v1 v2 d else Done (true, d)) else check_par k v1 v2 d) ;;
  Done (match x_stat d with sc_same => if e then d else set_x_stat sc_data d | _ => d end).

(** 608-684: the loops. *)
Fixpoint inserts (act : str) (s : side) (def : list Z) (l : list (list Z * list Z)) (d : dst) : outcome dst :=
  match l with [] => Done d | (k, v) :: l' => do d <- show_insert act s def k v d ;; inserts act s def l' d end.
Fixpoint merge (def : list Z) (l1 : list (list Z * list Z)) : list (list Z * list Z) -> dst -> outcome dst :=
  fix inner (l2 : list (list Z * list Z)) (d : dst) : outcome dst :=
    match l1, l2 with
    | [], _ => inserts c_ins2 s2 def l2 d
    | _, [] => inserts c_ins1 s1 def l1 d
    | (k1, v1) :: t1, (k2, v2) :: t2 =>
        do c <- key_order k1 k2 ;;
        if c =? 0 then do d <- both k1 v1 v2 d ;; merge def t1 t2 d
        else if c <? 0 then do d <- show_insert c_ins1 s1 def k1 v1 d ;; merge def t1 l2 d
        else do d <- show_insert c_ins2 s2 def k2 v2 d ;; inner t2 d
    end.

(** 571-686: the records of two symbols of the same type and dimension. *)
Definition compare_records (l1 l2 : list (list Z * list Z)) (d : dst) : outcome dst :=
  do def <- def_values typ uinfo ;;
  let d := if (20 <=? dim) || (o_diff o && (20 <=? dim - 1)) then set_x_stat sc_dim10 d else d in
  do d <- merge def l1 l2 d ;;
  symb_close d.
End Compare.

(** 176-183, 510-570, 687-690 (CompareSy): what the two files say about the symbol, dimension,
    type, subtype and the names of its domains. *)
Record syminfo := mkInfo { i_name : str; i_dim : Z; i_typ : Z; i_uinfo : Z; i_doms : list str }.
Definition set_for_alias (t : Z) : Z := if t =? dt_alias then dt_set else t.
Definition same_names (a b : list str) : bool := forallb (fun p => str_eqb (upper (fst p)) (upper (snd p))) (combine a b).
Definition compare_sy (z : zlib) (o : dopts) (s1 s2 : side) (table : list str) (maxuel : nat) (a b : syminfo) (l1 l2 : list (list Z * list Z)) (d : dst) : outcome dst :=
  let t1 := set_for_alias (i_typ a) in
  let t2 := set_for_alias (i_typ b) in
  let d := set_x_open false (set_x_stat sc_same d) in
  if negb (t1 =? t2) then Done (set_x_stat sc_typ d)
  else if negb (i_dim a =? i_dim b) then Done (set_x_stat sc_dim d)
  else if o_doms o && (0 <? i_dim a) && negb (same_names (i_doms a) (i_doms b)) then Done (set_x_stat sc_domain d)
  else compare_records z o s1 s2 table maxuel (i_name b) (i_dim a) t1 (i_uinfo a) l1 l2 d.

(** ** The whole run: 1030-1074 (main) *)

(** What is read from a file: every symbol with its records. *)
Definition dfile := list (syminfo * list (list Z * list Z)).
(** gdxFindSymbol. *)
Definition find_name (n : str) (f : dfile) : option (syminfo * list (list Z * list Z)) := find (fun s => str_eqb (upper (i_name (fst s))) (upper n)) f.
(** short_string.cpp 173-175: the table of the symbols is ordered by strcmp. *)
Fixpoint str_before (a b : str) : bool :=
  match a, b with
  | _, [] => false
  | [], _ => true
  | x :: a', y :: b' => if x =? y then str_before a' b' else x <? y
  end.
Fixpoint insert_name (s : syminfo * list (list Z * list Z)) (f : dfile) : dfile :=
  match f with
  | [] => [s]
  | t :: f' => if str_before (i_name (fst t)) (i_name (fst s)) then t :: insert_name s f' else s :: f
  end.
Definition by_name (f : dfile) : dfile := fold_right insert_name [] f.

Section Files.
Context (z : zlib) (o : dopts) (s1 s2 : side) (table : list str) (maxuel : nat).
(** Options ID and SkipID. *)
Context (sel : str -> bool).

(** 1049-1058: the symbols of file 1. *)
Fixpoint compare_all (f2 : dfile) (l : dfile) (d : dst) (tab : list (str * status)) : outcome (dst * list (str * status)) :=
  match l with
  | [] => Done (d, tab)
  | (a, l1) :: l' =>
      match find_name (i_name a) f2 with
      | Some (b, l2) =>
          do d <- compare_sy z o s1 s2 table maxuel a b l1 l2 d ;;
          compare_all f2 l' d (if differs (x_stat d) then tab ++ [(i_name b, x_stat d)] else tab)
      | None => compare_all f2 l' d (tab ++ [(i_name a, sc_notf2)])
      end
  end.
(** 1060-1074: the symbols of file 2 that file 1 does not have. *)
Fixpoint only_second (f1 : dfile) (l : dfile) : list (str * status) :=
  match l with
  | [] => []
  | (b, _) :: l' => match find_name (i_name b) f1 with Some _ => only_second f1 l' | None => (i_name b, sc_notf1) :: only_second f1 l' end
  end.
(** The summary of differences; names differ in more than case within a file, so that nothing
    is entered twice into the table (a std::map, printed in the order of the names). *)
Definition selected (f : dfile) : dfile := by_name (filter (fun s => sel (i_name (fst s))) f).
Definition compare_files (f1 f2 : dfile) (d : dst) : outcome (dst * list (str * status)) :=
  do (d, tab) <- compare_all f2 (selected f1) d [] ;;
  Done (d, tab ++ only_second f1 (selected f2)).
End Files.
