(** * ApiWrite: the calls that add symbols, records, labels and texts

    src/gxfile.cpp, the functions cited below.  Arrays given by the caller are lists; an
    array shorter than what the library reads is undefined behaviour. *)

From Coq Require Import String.
From Verif Require Import Base Prim Values Records LinkedData StrHash IntMap Strings AStream BufStream State FileImage ApiCore.
Open Scope Z_scope.
Open Scope list_scope.

Definition refuse (st : gst) : outcome (resp * gst) := Done (ret 0, set_error ERR_BADMODE st).
Definition fail_with (e : Z) (st : gst) : outcome (resp * gst) := Done (ret 0, set_error e st).
Definition okay (st : gst) : outcome (resp * gst) := Done (ret 1, st).
Definition checked (modes : list gmode) (st : gst) (k : outcome (resp * gst)) : outcome (resp * gst) :=
  if mode_in (g_mode st) modes then k else refuse st.

Section Z.
Context (z : zlib).

(** ** Records *)

(** 2229-2239 (gdxDataWriteRawStart), 2241-2251 (gdxDataWriteRawStartKeyBounds). *)
Definition write_raw_start (name text : str) (dim typ uinfo : Z) (st : gst) : outcome (resp * gst) :=
  do (ok, st) <- prepare_symbol_write z name text dim typ uinfo st ;;
  if negb ok then Done (ret 0, st)
  else
    let st := upd_wrk (fun w => set_w_mms (repeat (0, INT_MAX) (w_dim w)) w) st in
    do st <- init_do_write z (-1) st ;;
    okay (set_g_mode fw_dom_raw st).

Definition write_raw_start_bounds (name text : str) (dim typ uinfo : Z) (mins maxs : list Z) (st : gst)
    : outcome (resp * gst) :=
  do (ok, st) <- prepare_symbol_write z name text dim typ uinfo st ;;
  if negb ok then Done (ret 0, st)
  else
    let n := w_dim (g_wrk st) in
    if (length mins <? n)%nat || (length maxs <? n)%nat then UB else
    let st := upd_wrk (set_w_mms (combine (firstn n mins) (firstn n maxs))) st in
    do st <- init_do_write z (-1) st ;;
    okay (set_g_mode fw_dom_raw st).

(** The first record ends the phase in which the domain can be set. *)
Definition enter (dom data : gmode) (st : gst) : gst :=
  if mode_in (g_mode st) [dom] then set_g_mode data st else st.

(** 2221-2227 (gdxDataWriteRaw). *)
Definition write_raw (keys vals : list Z) (st : gst) : outcome (resp * gst) :=
  let st := enter fw_dom_raw fw_raw_data st in
  checked [fw_raw_data] st (
  do (ok, st) <- do_write z keys vals st ;;
  Done (ret (b2z ok), st)).

(** 2719-2725 (gdxDataWriteMapStart), 2727-2758 (gdxDataWriteMap). *)
Definition write_map_start (name text : str) (dim typ uinfo : Z) (st : gst) : outcome (resp * gst) :=
  do (ok, st) <- prepare_symbol_write z name text dim typ uinfo st ;;
  if negb ok then Done (ret 0, st)
  else okay (set_g_mode fw_dom_map (upd_wrk (set_w_sort (Some [])) st)).

Definition widen (k : Z) (mm : Z * Z) : Z * Z := (Z.min (fst mm) k, Z.max (snd mm) k).

(** The numbers of the labels, and the widened bounds; [None]: an unknown user number
    (the bounds of the dimensions before it stay widened). *)
Fixpoint map_keys (m : imap) (keys : list Z) (mms : list (Z * Z)) : option (list Z) * list (Z * Z) :=
  match keys, mms with
  | k :: ks, mm :: mms' =>
      let n := im_get m k in
      if n <? 0 then (None, mms)
      else let '(r, mms'') := map_keys m ks mms' in
           (option_map (cons n) r, widen n mm :: mms'')
  | _, _ => (Some [], mms)
  end.

Definition add_item (keys vals : list Z) (st : gst) : outcome gst :=
  match w_sort (g_wrk st) with
  | Some items => Done (upd_wrk (set_w_sort (Some (items ++ [(keys, vals)]))) st)
  | None => UB
  end.

Definition write_map (keys vals : list Z) (st : gst) : outcome (resp * gst) :=
  let st := enter fw_dom_map fw_map_data st in
  checked [fw_map_data] st (
  let w := g_wrk st in
  if (length keys <? w_dim w)%nat || (length vals <? w_dsize w)%nat then UB else
  let '(r, mms) := map_keys (d_usr (g_dic st)) (firstn (w_dim w) keys) (w_mms w) in
  let st := upd_wrk (set_w_mms mms) st in
  match r with
  | None => fail_with ERR_BADELEMENTINDEX st
  | Some ks => do st <- add_item ks (firstn (w_dsize w) vals) st ;; okay st
  end).

(** 463-471 (gdxDataWriteStrStart), 473-507 (gdxDataWriteStr). *)
Definition write_str_start (name text : str) (dim typ uinfo : Z) (st : gst) : outcome (resp * gst) :=
  do (ok, st) <- prepare_symbol_write z name text dim typ uinfo st ;;
  if negb ok then Done (ret 0, st)
  else okay (set_g_mode fw_dom_str
               (upd_wrk (fun w => set_w_sort (Some []) (set_w_lstr (repeat [127] (w_dim w)) w)) st)).

(** 485-503: one label.  [last] and [mms] are the entries of LastElem and MinElem/MaxElem
    for this dimension, [cache] is LastStrElem; a label of 64 or more characters does not
    fit into the cache and leaves it unchanged. *)
Definition str_key (s cache : str) (last : Z) (mm : Z * Z) (d : dic)
    : outcome (option (str * Z * (Z * Z) * dic)) :=
  do s <- trim_store s ;;
  if negb (hd 0 cache =? 127) && str_eqb s cache then Done (Some (cache, last, mm, d))
  else
    let n := uel_find d s in
    let cache' := if zlen s + 1 >? 64 then cache else s in
    if n =? -1 then
      if good_uel s then
        let '(n, d) := uel_add s d in Done (Some (cache', n, widen n mm, d))
      else Done None
    else Done (Some (cache', n, widen n mm, d)).

Fixpoint str_keys (keys : list str) (i : nat) (st : gst) : outcome (bool * gst) :=
  match keys with
  | [] => Done (true, st)
  | s :: r =>
      let w := g_wrk st in
      match nth_error (w_lstr w) i, nth_error (w_last w) i, nth_error (w_mms w) i with
      | Some cache, Some last, Some mm =>
          do x <- str_key s cache last mm (g_dic st) ;;
          match x with
          | None => Done (false, set_error ERR_BADUELSTR st)
          | Some (cache', n, mm', d) =>
              let st := set_g_dic d (upd_wrk (fun w => set_w_lstr (set_nth i cache' (w_lstr w))
                          (set_w_last (set_nth i n (w_last w)) (set_w_mms (set_nth i mm' (w_mms w)) w))) st) in
              str_keys r (S i) st
          end
      | _, _, _ => UB
      end
  end.

Definition write_str (keys : list str) (vals : list Z) (st : gst) : outcome (resp * gst) :=
  let st := enter fw_dom_str fw_str_data st in
  checked [fw_str_data] st (
  let w := g_wrk st in
  if (length keys <? w_dim w)%nat || (length vals <? w_dsize w)%nat then UB else
  do (ok, st) <- str_keys (firstn (w_dim w) keys) 0 st ;;
  if ok then do st <- add_item (firstn (w_dim w) (w_last (g_wrk st))) (firstn (w_dsize w) vals) st ;; okay st
  else Done (ret 0, st)).

(** 509-532 (gdxDataWriteDone). *)
Definition data_write_done (st : gst) : outcome (resp * gst) :=
  checked [fw_raw_data; fw_map_data; fw_str_data; fw_dom_raw; fw_dom_map; fw_dom_str] st (
  do st <- write_done z st ;; okay st).

End Z.

(** ** Domains *)

(** 2488-2527: from the domain to the set whose members are checked.  A cyclic chain of
    aliases loops forever. *)
Inductive dres := DNoData | DSet (n : Z) | DUniverse | DNotSet.
Fixpoint dom_resolve (d : dic) (bogus : bool) (fuel : nat) (n : Z) : outcome dres :=
  match fuel with
  | O => UB
  | S k =>
      match get_sym d n with
      | None => UB
      | Some o =>
          let is_alias := sy_type o =? dt_alias in
          let is_set := sy_type o =? dt_set in
          do nodata <- (if negb bogus && Nat.eqb (sy_dim o) 1 && (is_set || is_alias) then
                          match (if is_alias then get_sym d (sy_uinfo o) else Some o) with
                          | None => UB
                          | Some t => Done (match sy_bits t with None => true | Some _ => false end)
                          end
                        else Done false) ;;
          if nodata then Done DNoData
          else if is_set then Done (DSet n)
          else if is_alias then
            if 0 <? sy_uinfo o then dom_resolve d bogus k (sy_uinfo o) else Done DUniverse
          else Done DNotSet
      end
  end.

(** 2478-2534, for the dimensions from [i] on; [cur] is the symbol being written.
    The first result is false when the call is given up (ERR_NODOMAINDATA). *)
Fixpoint set_domains (cur : Z) (ids : list str) (i : nat) (res : bool) (st : gst) : outcome (bool * bool * gst) :=
  match ids with
  | [] => Done (true, res, st)
  | id :: r =>
      let d := g_dic st in
      let put v st := upd_dic (upd_sym cur (fun s =>
                        set_sy_doms (option_map (set_nth i v) (sy_doms s)) s)) st in
      let n := sym_find d id in
      if str_eqb id (s2z "*") then set_domains cur r (S i) res (put 0 st)
      else if n <=? 0 then set_domains cur r (S i) false (put 0 (set_error ERR_UNKNOWNDOMAIN st))
      else
        do x <- dom_resolve d (e_bogus (g_env st)) (S (length (d_names d))) n ;;
        match x with
        | DNoData => Done (false, false, set_error ERR_NODOMAINDATA st)
        | DNotSet => set_domains cur r (S i) false (put 0 (set_error ERR_ALIASSETEXPECTED st))
        | DUniverse => set_domains cur r (S i) res (put n st)
        | DSet t =>
            let st := put n st in
            let st := if Nat.eqb (w_dim (g_wrk st)) 1 && (n =? cur) then st
                      else upd_wrk (fun w => set_w_wrb (set_nth i
                             (match get_sym d t with
                              | Some s => match sy_bits s with Some _ => Some t | None => None end
                              | None => None
                              end) (w_wrb w)) w) st in
            set_domains cur r (S i) res st
        end
  end.

(** 2458-2547 (gdxSymbolSetDomain). *)
Definition symbol_set_domain (ids : list str) (st : gst) : outcome (resp * gst) :=
  checked [fw_dom_raw; fw_dom_map; fw_dom_str] st (
  match w_cur (g_wrk st) with
  | CNull => Done (ret 0, st)
  | CDangling => UB
  | CSym n =>
      match get_sym (g_dic st) n with
      | None => UB
      | Some s =>
          if (length ids <? sy_dim s)%nat then UB else
          let st := upd_dic (upd_sym n (set_sy_doms (Some (repeat 0 (sy_dim s))))) st in
          do (go, res, st) <- set_domains n (firstn (sy_dim s) ids) 0 true st ;;
          if negb go then Done (ret 0, st)
          else
            let m := match g_mode st with
                     | fw_dom_raw => fw_raw_data
                     | fw_dom_map => fw_map_data
                     | fw_dom_str => fw_str_data
                     | m => m
                     end in
            Done (ret (b2z res), set_g_mode m st)
      end
  end).

(** 2549-2584 (gdxSymbolSetDomainX). *)
Fixpoint dom_strings (ids : list str) (l : list (str * unit)) : list Z * list (str * unit) :=
  match ids with
  | [] => ([], l)
  | id :: r =>
      if good_ident id then
        match sl_find true l id with
        | Some n => let '(ns, l') := dom_strings r l in (n + 1 :: ns, l')
        | None => let '(ns, l') := dom_strings r (l ++ [(id, tt)]) in (zlen l + 1 :: ns, l')
        end
      else let '(ns, l') := dom_strings r l in (0 :: ns, l')
  end.
Definition symbol_set_domain_x (synr : Z) (ids : list str) (st : gst) : outcome (resp * gst) :=
  let d := g_dic st in
  if negb (d_nn d) then UB else
  if negb ((1 <=? synr) && (synr <=? sym_count d)) then fail_with ERR_BADSYMBOLINDEX st else
  match get_sym d synr with
  | None => UB
  | Some s =>
      if Nat.eqb (sy_dim s) 0 then okay st
      else if (length ids <? sy_dim s)%nat || negb (d_dn d) then UB
      else
        let '(ns, l) := dom_strings (firstn (sy_dim s) ids) (d_dstrs d) in
        okay (upd_dic (fun d => upd_sym synr (set_sy_dstrs (Some ns)) (set_d_dstrs l d)) st)
  end.

(** ** Aliases, comments, texts *)

(** 2101-2139 (gdxAddAlias). *)
Definition alias_text (name : str) : outcome str :=
  let t := s2z "Aliased with " ++ name in
  if zlen t <=? 255 then Done t else if zlen t =? 256 then UB else Done [].
Definition add_alias (id1 id2 : str) (st : gst) : outcome (resp * gst) :=
  checked AnyWriteMode st (
  let d := g_dic st in
  let find id := if str_eqb id (s2z "*") then INT_MAX else sym_find d id in
  let n1 := find id1 in
  let n2 := find id2 in
  if negb (xorb (0 <=? n1) (0 <=? n2)) then fail_with ERR_ALIASSETEXPECTED st
  else
    let '(n, name) := if 0 <? n1 then (n1, id2) else (n2, id1) in
    let n := if n =? INT_MAX then 0 else n in
    let target := if n =? 0 then Some None else option_map Some (get_sym d n) in
    match target with
    | None => UB
    | Some t =>
        if match t with
           | Some s => negb ((sy_type s =? dt_set) || (sy_type s =? dt_alias))
           | None => false
           end then fail_with ERR_ALIASSETEXPECTED st
        else
          let '(ok, st) := good_new_symbol name st in
          if negb ok then Done (ret 0, st)
          else
            do text <- (match t with
                        | Some _ => match sym_name d n with Some nm => alias_text nm | None => UB end
                        | None => Done (s2z "Aliased with *")
                        end) ;;
            let dim := match t with Some s => sy_dim s | None => 1%nat end in
            let s := mkSym 0 dim dt_alias n 0 0 false text false false None None [] None in
            okay (upd_dic (fun d => set_d_names (d_names d ++ [(name, s)]) d) st)
    end).

(** 3530-3548 (gdxSymbolAddComment). *)
Definition symbol_add_comment (synr : Z) (txt : str) (st : gst) : outcome (resp * gst) :=
  checked AnyWriteMode st (
  do target <- (if synr <=? 0 then
                  match w_cur (g_wrk st) with
                  | CNull => Done None
                  | CSym n => Done (Some n)
                  | CDangling => UB
                  end
                else Done (if synr <=? sym_count (g_dic st) then Some synr else None)) ;;
  match target with
  | None => fail_with ERR_NOSYMBOLFORCOMMENT st
  | Some n => okay (upd_dic (upd_sym n (fun s => set_sy_comments (sy_comments s ++ [cut255 txt]) s)) st)
  end).

(** 2141-2153 (gdxAddSetText). *)
Definition add_set_text (txt : str) (st : gst) : outcome (resp * gst) :=
  match d_texts (g_dic st) with
  | None => Done (ret_i 0 [0], st)
  | Some l => let '(l', n) := sl_add false l (make_good (cut255 txt)) 0 in
              Done (ret_i 1 [n], upd_dic (set_d_texts (Some l')) st)
  end.

(** 3105-3115 (gdxSetTextNodeNr). *)
Definition set_text_node_nr (n node : Z) (st : gst) : outcome (resp * gst) :=
  match d_texts (g_dic st) with
  | None => Done (ret 0, st)
  | Some l => match znth l n with
              | Some (t, 0) => okay (upd_dic (set_d_texts (Some (zset n (t, node) l))) st)
              | _ => Done (ret 0, st)
              end
  end.

(** ** Labels *)

(** 2616-2622 (gdxUELRegisterRawStart), 2600-2614 (gdxUELRegisterRaw). *)
Definition register_raw_start (st : gst) : outcome (resp * gst) :=
  checked [fw_init] st (okay (set_g_mode f_raw_elem (set_g_aft fw_init st))).
Definition register_raw (s : str) (st : gst) : outcome (resp * gst) :=
  checked [f_raw_elem] st (
  do s <- trim_store s ;;
  if good_uel s then okay (upd_dic (fun d => snd (uel_add s d)) st)
  else fail_with ERR_BADUELSTR st).

(** 2637-2645 (gdxUELRegisterStrStart), 2624-2635 (gdxUELRegisterStr). *)
Definition after_reg (st : gst) : gmode := match g_mode st with fw_init => fw_init | _ => fr_init end.
Definition register_str_start (st : gst) : outcome (resp * gst) :=
  checked [fr_init; fw_init] st (okay (set_g_mode f_str_elem (set_g_aft (after_reg st) st))).
Definition register_str (s : str) (st : gst) : outcome (resp * gst) :=
  checked [f_str_elem] st (
  do s <- trim_store s ;;
  if good_uel s then
    do (n, d) <- add_usr_new s (g_dic st) ;;
    Done (ret_i 1 [n], set_g_dic d st)
  else fail_with ERR_BADUELSTR st).

(** 2760-2768 (gdxUELRegisterMapStart), 2770-2786 (gdxUELRegisterMap). *)
Definition register_map_start (st : gst) : outcome (resp * gst) :=
  checked [fr_init; fw_init] st (okay (set_g_mode f_map_elem (set_g_aft (after_reg st) st))).
Definition register_map (n : Z) (s : str) (st : gst) : outcome (resp * gst) :=
  do s <- trim_store s ;;
  checked [f_map_elem] st (
  if good_uel s then
    do (k, d) <- add_usr_indx_new s n (g_dic st) ;;
    let st := set_g_dic d st in
    if 0 <=? k then okay st else fail_with ERR_UELCONFLICT st
  else fail_with ERR_BADUELSTR st).

(** 2593-2598 (gdxUELRegisterDone). *)
Definition register_done (st : gst) : outcome (resp * gst) :=
  checked [f_raw_elem; f_map_elem; f_str_elem] st (okay (set_g_mode (g_aft st) st)).

(** 2677-2698 (gdxRenameUEL). *)
Definition rename_uel (old new : str) (st : gst) : outcome (resp * gst) :=
  let d := g_dic st in
  if negb (d_un d) then Done (ret (-1), st)
  else
    do s <- trim_store new ;;
    if negb (good_uel s) then Done (ret ERR_BADUELSTR, st)
    else
      do o <- trim_store old ;;
      let n := uel_find d o in
      if n <? 0 then Done (ret 2, st)
      else if 0 <=? uel_find d s then Done (ret 3, st)
      else match znth (d_uels d) (n - 1) with
           | None => UB
           | Some e => Done (ret 0, upd_dic (set_d_uels (zset (n - 1) (s, snd e) (d_uels d))) st)
           end.

(** ** Acronyms *)

(** 3221-3238 (gdxAcronymAdd). *)
Inductive acro_chk := AcFree | AcSame (n : Z) | AcBad.
Fixpoint acro_check (name : str) (ix : Z) (l : list acro) (n : Z) : acro_chk :=
  match l with
  | [] => AcFree
  | a :: r => if same_text true (ac_name a) name
              then (if ac_map a =? ix then AcSame n else AcBad)
              else if ac_map a =? ix then AcBad else acro_check name ix r (n + 1)
  end.
Definition acronym_add (name txt : str) (ix : Z) (st : gst) : outcome (resp * gst) :=
  let d := g_dic st in
  if negb (d_nn d) then UB else
  match acro_check name ix (d_acros d) 0 with
  | AcBad => Done (ret (-1), set_error ERR_ACROBADADDITION st)
  | AcSame n => Done (ret n, st)
  | AcFree => Done (ret (zlen (d_acros d) + 1),
                    upd_dic (set_d_acros (d_acros d ++ [mkAcro name (make_good txt) ix ix false])) st)
  end.

(** 2985-3019 (gdxAcronymSetInfo).  The range check always succeeds. *)
Definition acronym_set_info (n : Z) (name txt : str) (ix : Z) (st : gst) : outcome (resp * gst) :=
  let d := g_dic st in
  if negb (d_nn d) then UB else
  match znth (d_acros d) (n - 1) with
  | None => UB
  | Some a =>
      let put a st := upd_dic (fun d => set_d_acros (zset (n - 1) a (d_acros d)) d) st in
      if mode_in (g_mode st) AnyWriteMode || ac_auto a then
        let '(ok, st) := good_new_symbol name st in
        if negb ok then fail_with ERR_BADACRONAME st
        else if ac_auto a then okay (put (set_ac_name name (set_ac_text (make_good txt) (set_ac_auto false a))) st)
        else if ix =? ac_map a then okay (put (set_ac_name name (set_ac_text (make_good txt) a)) st)
        else fail_with ERR_BADACROINDEX st
      else if negb (ac_rmap a =? ix) then
        if negb (same_text true name (ac_name a)) then fail_with ERR_BADACRONAME st
        else if existsb (fun b => ac_rmap b =? ix) (d_acros d) then fail_with ERR_ACRODUPEMAP st
        else okay (put (set_ac_rmap ix a) st)
      else okay st
  end.

(** 3021-3026 (gdxAcronymNextNr). *)
Definition acronym_next_nr (nv : Z) (st : gst) : outcome (resp * gst) :=
  Done (ret (e_nextacr (g_env st)), if 0 <=? nv then upd_env (set_e_nextacr nv) st else st).

(** ** Special values *)

(** 2320-2372 (gdxSetSpecialValues): undefined, not available, +inf, -inf, eps. *)
Fixpoint has_dup (l : list Z) : bool :=
  match l with
  | [] => false
  | x :: r => existsb (Z.eqb x) r || has_dup r
  end.
Definition set_special (vals : list Z) (st : gst) : outcome (resp * gst) :=
  if (length vals <? 5)%nat then UB else
  let five := firstn 5 vals in
  if has_dup five then fail_with ERR_DUPLICATESPECVAL st
  else let tab := five ++ skipn 5 (e_tab (g_env st)) in
       okay (upd_env (fun e => set_e_tab tab (set_e_rtab tab e)) st).

(** 3463-3485 (gdxSetReadSpecialValues). *)
Definition set_read_special (vals : list Z) (st : gst) : outcome (resp * gst) :=
  if (length vals <? 5)%nat then UB else
  okay (upd_env (fun e => set_e_rtab (firstn 5 vals ++ skipn 5 (e_rtab e)) e) st).
