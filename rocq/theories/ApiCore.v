(** * ApiCore: the internal functions of the GDX object

    src/gxfile.cpp: the label table, the checks, PrepareSymbolWrite, InitDoWrite, DoWrite,
    DoRead and PrepareSymbolRead.  Functions take the object and return a result and the
    new object; undefined behaviour is [UB].  The library is modelled as built with
    NDEBUG (assertions do nothing), tracing off.  Counters are unbounded integers. *)

From Coq Require Import String.
From Verif Require Import Base Prim Values Records LinkedData StrHash IntMap Strings AStream BufStream State FileImage.
Open Scope Z_scope.
Open Scope list_scope.

(** ** The label table (gxfile.cpp 3739-3895) *)

Definition uel_count (d : dic) : Z := zlen (d_uels d).
Definition uel_find (d : dic) (s : str) : Z :=
  match sl_find true (d_uels d) s with Some n => n + 1 | None => -1 end.
Definition uel_text (d : dic) (i : Z) : option str := option_map fst (znth (d_uels d) (i - 1)).
(** 3750-3753 (GetUserMap): outside the table it reads outside the array. *)
Definition user_map (d : dic) (i : Z) : outcome Z :=
  match znth (d_uels d) (i - 1) with Some e => Done (snd e) | None => UB end.
(** 3755-3758 (SetUserMap). *)
Definition set_user_map (i n : Z) (d : dic) : outcome dic :=
  match znth (d_uels d) (i - 1) with
  | Some e => Done (set_d_uels (zset (i - 1) (fst e, n) (d_uels d)) d)
  | None => UB
  end.

(** 3760-3771 (NewUsrUel). *)
Definition new_usr_uel (en : Z) (d : dic) : outcome (Z * dic) :=
  do v <- user_map d en ;;
  if v <? 0 then
    let res := im_high (d_usr d) + 1 in
    if int_okb res then
      do d1 <- set_user_map en res d ;;
      do m <- im_set (d_usr d1) res en ;;
      Done (res, set_d_status None (set_d_usr m d1))
    else UB
  else Done (v, set_d_status None d).

(** AddObject( s, -1 ): one-based number. *)
Definition uel_add (s : str) (d : dic) : Z * dic :=
  let '(l, n) := sl_add true (d_uels d) s (-1) in (n + 1, set_d_uels l d).

(** 3773-3785 (AddUsrNew). *)
Definition add_usr_new (s : str) (d : dic) : outcome (Z * dic) :=
  let '(en, d1) := uel_add s d in new_usr_uel en d1.

(** 3787-3804 (AddUsrIndxNew). *)
Definition add_usr_indx_new (s : str) (n : Z) (d : dic) : outcome (Z * dic) :=
  let '(en, d1) := uel_add s d in
  do v <- user_map d1 en ;;
  if v <? 0 then
    do d2 <- set_user_map en n d1 ;;
    do m <- im_set (d_usr d2) n en ;;
    Done (n, set_d_status None (set_d_usr m d2))
  else if v =? n then Done (v, set_d_status None d1)
  else Done (-1, set_d_status None d1).

(** 3864-3890 (GetMapToUserStatus), the loop over the labels. *)
Fixpoint status_from (l : list Z) (c : bool) (lv : Z) (acc : mstat) : mstat :=
  match l with
  | [] => match acc with
          | map_sortgrow => if c then map_sortfull else map_sortgrow
          | _ => acc
          end
  | v :: r => if v <? 0 then status_from r false lv acc
              else if v >? lv then status_from r c v (if c then acc else map_sorted)
              else map_unsorted
  end.
Definition map_status (d : dic) : mstat * dic :=
  match d_status d with
  | Some s => (s, d)
  | None => let s := status_from (List.map snd (d_uels d)) true (-1) map_sortgrow in (s, set_d_status (Some s) d)
  end.
Definition mstat_nr (s : mstat) : Z :=
  match s with map_unsorted => 1 | map_sorted => 2 | map_sortgrow => 3 | map_sortfull => 4 end.

(** ** Symbols *)

Definition sym_count (d : dic) : Z := zlen (d_names d).
Definition sym_find (d : dic) (s : str) : Z :=
  match sl_find true (d_names d) s with Some n => n + 1 | None => -1 end.
Definition get_sym (d : dic) (n : Z) : option sym := option_map snd (znth (d_names d) (n - 1)).
Definition sym_name (d : dic) (n : Z) : option str := option_map fst (znth (d_names d) (n - 1)).
Definition upd_sym (n : Z) (f : sym -> sym) (d : dic) : dic :=
  match znth (d_names d) (n - 1) with
  | Some e => set_d_names (zset (n - 1) (fst e, f (snd e)) (d_names d)) d
  | None => d
  end.

(** The symbol CurSyPtr points to. *)
Definition cur_sym (st : gst) : outcome (Z * sym) :=
  match w_cur (g_wrk st) with
  | CSym n => match get_sym (g_dic st) n with Some s => Done (n, s) | None => UB end
  | _ => UB
  end.

(** ** Acronyms (gxfile.cpp 3916-3999) *)

Fixpoint acro_index (p : acro -> bool) (l : list acro) (n : Z) : Z :=
  match l with
  | [] => -1
  | a :: r => if p a then n else acro_index p r (n + 1)
  end.
Definition acro_entry (m : Z) (l : list acro) : Z := acro_index (fun a => ac_map a =? m) l 0.
Definition acro_named (s : str) (l : list acro) : Z := acro_index (fun a => same_text true (ac_name a) s) l 0.
(** 3947-3951 (CheckEntry). *)
Definition check_entry (m : Z) (l : list acro) : list acro :=
  if acro_entry m l <? 0 then l ++ [mkAcro [] [] m (-1) false] else l.

(** ** Filters (gxfile.hpp 86-114, gxfile.cpp 4001-4041) *)

Definition in_list (n : Z) (l : list Z) : bool := existsb (Z.eqb n) l.
Definition in_filter (f : filt) (v : Z) : bool := (0 <=? v) && (v <=? fl_max f) && in_list v (fl_map f).
Fixpoint find_filter (l : list filt) (n : Z) : option filt :=
  match l with
  | [] => None
  | f :: r => if fl_nr f =? n then Some f else find_filter r n
  end.
(** TBooleanBitArray::SetBit( n, true ) as a set of members: negative indices are ignored,
    huge ones overflow (IntMap.v: [ba_set], [ba_grow]). *)
Definition bits_add (n : Z) (l : list Z) : outcome (list Z) :=
  if n <? 0 then Done l else if n >? INT_MAX - 8 then UB else Done (n :: l).

(** ** Checks *)

(** 810-815 (IsGoodNewSymbol). *)
Definition good_new_symbol (s : str) (st : gst) : bool * gst :=
  if 1 <=? sym_find (g_dic st) s then (false, set_error ERR_DUPLICATESYMBOL st)
  else if 0 <=? acro_named s (d_acros (g_dic st)) then (false, set_error ERR_DUPLICATESYMBOL st)
  else if good_ident s then (true, st)
  else (false, set_error ERR_BADIDENTFORMAT st).

(** utils.cpp 168-182 (trimRight with a 256-byte buffer, used only when something is
    trimmed). *)
Definition trim_store (s : str) : outcome str :=
  let t := trim_right s in
  if (zlen t =? zlen s) || (zlen t <=? 255) then Done t else UB.

(** ** Error records (gxfile.cpp 1514-1554) *)

Definition add_error (keys vals : list Z) (st : gst) : gst :=
  upd_err (fun e =>
    match r_list e with
    | None => set_r_list (Some [(keys, vals)]) e
    | Some l => if 11 <=? zlen l then e else set_r_list (Some (l ++ [(keys, vals)])) e
    end) st.

(** 1514-1545 (AddToErrorListDomErrs): the record is added when one of its violating
    (negated) indices has not been seen at that position. *)
Definition seen_at (d : nat) (k : Z) (l : list (list Z * list Z)) : bool :=
  existsb (fun r => match nth_error (fst r) d with Some x => x =? k | None => false end) l.
Fixpoint some_unseen (keys : list Z) (d : nat) (l : list (list Z * list Z)) : bool :=
  match keys with
  | [] => false
  | k :: r => ((k <? 0) && negb (seen_at d k l)) || some_unseen r (S d) l
  end.
Definition add_dom_error (keys vals : list Z) (st : gst) : gst :=
  upd_err (fun e =>
    match r_list e with
    | None => set_r_list (Some (if some_unseen keys 0 [] then [(keys, vals)] else [])) e
    | Some l => if 11 <=? zlen l then e
                else if some_unseen keys 0 l then set_r_list (Some (l ++ [(keys, vals)])) e else e
    end) st.

(** ** Writing *)

Section Z.
Context (z : zlib).

(** 726-789 (PrepareSymbolWrite). *)
Definition prepare_symbol_write (name text : str) (dim typ uinfo : Z) (st : gst) : outcome (bool * gst) :=
  let st := upd_wrk (fun w => set_w_sort None (set_w_cur CNull w)) (upd_err (set_r_list None) st) in
  if negb (mode_in (g_mode st) [fw_init]) then Done (false, set_error ERR_BADMODE st)
  else
    let '(ok, st) := good_new_symbol name st in
    if negb ok then Done (false, st)
    else if negb ((0 <=? dim) && (dim <=? 20)) then Done (false, set_error ERR_BADDIMENSION st)
    else if negb ((0 <=? typ) && (typ <=? dt_equ)) then Done (false, set_error ERR_BADDATATYPE st)
    else
      let n := Z.to_nat dim in
      let comp := f_compout (g_fil st) && (0 <? dim) in
      let s := mkSym 0 n typ uinfo 0 0 false (make_good (assign_expl text)) comp false None None []
                 (if (typ =? dt_set) && (dim =? 1) && e_storedom (g_env st) then Some [] else None) in
      let st := upd_dic (fun d => set_d_names (d_names d ++ [(name, s)]) d) st in
      let dsize := match data_size typ with Some k => k | None => O end in
      let st := upd_wrk (fun w =>
        set_w_cur (CSym (sym_count (g_dic st))) (set_w_dim n (set_w_dsize dsize
        (set_w_last (repeat INDEX_INITIAL n) (set_w_mms (repeat (INT_MAX, 0) n)
        (set_w_wrb (repeat None n) w)))))) st in
      do st <- s_setcomp z comp st ;;
      Done (true, st).

(** 1170-1185 (InitDoWrite). *)
Definition init_do_write (nrecs : Z) (st : gst) : outcome gst :=
  let p := f_nwp (g_fil st) in
  do st <- s_setpos z p st ;;
  do (n, s) <- cur_sym st ;;
  let st := upd_dic (upd_sym n (set_sy_pos p)) st in
  let w := g_wrk st in
  let st := upd_wrk (fun w => set_w_cnt 0 (set_w_last (repeat INDEX_INITIAL (w_dim w)) w)) st in
  s_write (enc_blockhead (z_host z) (w_dim w) nrecs (w_mms w)) st.

(** 1246-1264: domain check against the bit map of the domain set. *)
Definition violates (d : dic) (wb : option Z) (k : Z) : bool :=
  match wb with
  | Some n => match get_sym d n with
              | Some s => match sy_bits s with
                          | Some l => negb (in_list k l)
                          | None => false
                          end
              | None => false
              end
  | None => false
  end.
Fixpoint negate_violating (d : dic) (wbs : list (option Z)) (keys : list Z) : list Z :=
  match wbs, keys with
  | wb :: wbs', k :: ks => (if violates d wb k then - k else k) :: negate_violating d wbs' ks
  | _, _ => keys
  end.
Fixpoint any_violation (d : dic) (wbs : list (option Z)) (keys : list Z) : bool :=
  match wbs, keys with
  | wb :: wbs', k :: ks => violates d wb k || any_violation d wbs' ks
  | _, _ => false
  end.

Definition f_iszero (x : Z) : bool := (x =? 0) || (x =? 2^63).

(** 1350-1353: acronym values get an entry in the acronym list. *)
Fixpoint check_acros (vs : list sval) (l : list acro) : outcome (list acro) :=
  match vs with
  | [] => Done l
  | SNum x :: r => if fleb SV_ACR x then
                     match d_round (fdiv x SV_ACR) with
                     | Some m => check_acros r (check_entry m l)
                     | None => UB
                     end
                   else check_acros r l
  | SMark _ :: r => check_acros r l
  end.

(** 1234-1380 (DoWrite).  Arguments shorter than the dimension or the number of values
    are read past their end. *)
Definition do_write (keys vals : list Z) (st : gst) : outcome (bool * gst) :=
  let w := g_wrk st in
  if (length keys <? w_dim w)%nat || (length vals <? w_dsize w)%nat then UB else
  let keys := firstn (w_dim w) keys in
  let vals := firstn (w_dsize w) vals in
  if any_violation (g_dic st) (w_wrb w) keys then
    Done (false, add_dom_error (negate_violating (g_dic st) (w_wrb w) keys) vals
                   (set_error ERR_DOMAINVIOLATION st))
  else
    do r <- write_keys (z_host z) (w_dim w) (w_mms w) (w_last w) (w_cnt w) keys ;;
    match r with
    | WDup => Done (false, add_error keys vals (set_error ERR_DATADUPLICATE st))
    | WUnsorted => Done (false, add_error keys vals (set_error ERR_RAWNOTSORTED st))
    | WBytes bs last =>
        let vs := List.map (classify (e_tab (g_env st))) vals in
        do st <- s_write (bs ++ List.concat (List.map (enc_sval (z_host z)) vs)) st ;;
        do acs <- check_acros vs (d_acros (g_dic st)) ;;
        let st := upd_dic (set_d_acros acs) st in
        let st := upd_wrk (fun w => set_w_last last (set_w_cnt (w_cnt w + 1) w)) st in
        do (n, s) <- cur_sym st ;;
        if (sy_type s =? dt_set) || (sy_type s =? dt_alias) then
          match vals with
          | [] => UB
          | x :: _ =>
              let s1 := if f_iszero x then s else set_sy_settext true s in
              match sy_bits s1 with
              | Some l => if Nat.eqb (w_dim w) 1 then
                            do l' <- bits_add (hd 0 last) l ;;
                            Done (true, upd_dic (upd_sym n (fun _ => set_sy_bits (Some l') s1)) st)
                          else Done (true, upd_dic (upd_sym n (fun _ => s1)) st)
              | None => Done (true, upd_dic (upd_sym n (fun _ => s1)) st)
              end
          end
        else Done (true, st)
    end.

(** 509-532 (gdxDataWriteDone) once the mode is right: the loop over the sorted records
    ignores the result of DoWrite. *)
Fixpoint write_all (rs : list (list Z * list Z)) (st : gst) : outcome gst :=
  match rs with
  | [] => Done st
  | (k, v) :: r => do (_, st) <- do_write k v st ;; write_all r st
  end.

(** The records of SortList in reading order (datastorage.hpp 200-251). *)
Definition sorted_items (dim : nat) (items : list (list Z * list Z)) : outcome (list (list Z * list Z)) :=
  match ld_sort (fold_left (fun d r => ld_add d (fst r) (snd r)) items (ld_new dim)) with
  | Some l => Done l
  | None => UB
  end.

Definition write_done (st : gst) : outcome gst :=
  do st <- (if mode_in (g_mode st) [fw_raw_data; fw_dom_raw] then Done st
            else match w_sort (g_wrk st) with
                 | None => UB
                 | Some items =>
                     do st <- init_do_write (zlen items) st ;;
                     do rs <- sorted_items (w_dim (g_wrk st)) items ;;
                     do st <- write_all rs st ;;
                     Done (upd_wrk (fun w => set_w_sort None
                             (set_w_rd (match items with [] => None | _ => Some [] end) w)) st)
                 end) ;;
  do st <- s_write (enc_byte 255) st ;;
  do (p, st) <- s_getpos z st ;;
  let st := upd_fil (set_f_nwp p) st in
  do (n, s) <- cur_sym st ;;
  let st := upd_dic (upd_sym n (fun s => set_sy_count (w_cnt (g_wrk st)) (set_sy_errs (r_cnt (g_err st)) s))) st in
  let st := upd_err (set_r_cnt 0) st in
  let st := set_g_mode fw_init st in
  do st <- s_setcomp z false st ;;
  Done (upd_wrk (set_w_cur CNull) st).

(** ** Reading values *)

(** generated/gclgms.h 189-212: default records. *)
Definition def_var (u : Z) : list Z :=
  let rows := [ [0; 0; 0; 0; d_one]; [0; 0; 0; d_one; d_one]; [0; 0; 0; SV_PINF; d_one];
                [0; 0; 0; SV_PINF; d_one]; [0; 0; SV_MINF; 0; d_one]; [0; 0; SV_MINF; SV_PINF; d_one];
                [0; 0; 0; SV_PINF; d_one]; [0; 0; 0; SV_PINF; d_one]; [0; 0; d_one; SV_PINF; d_one];
                [0; 0; d_one; SV_PINF; d_one] ] in
  match znth rows u with Some r => r | None => [0; 0; 0; 0; d_one] end.
Definition def_equ (u : Z) : list Z :=
  let rows := [ [0; 0; 0; 0; d_one]; [0; 0; 0; SV_PINF; d_one]; [0; 0; SV_MINF; 0; d_one];
                [0; 0; SV_MINF; SV_PINF; d_one]; [0; 0; 0; 0; d_one]; [0; 0; 0; SV_PINF; d_one];
                [0; 0; 0; 0; d_one] ] in
  match znth rows (u - 53) with Some r => r | None => [0; 0; 0; 0; d_one] end.
(** 1591-1603 (mapDefaultRecordValues). *)
Definition map_default (rtab : list Z) (x : Z) : Z :=
  match index_of x [SV_UNDEF; SV_NA; SV_PINF; SV_MINF; SV_EPS] 0 with
  | Some j => match znth rtab j with Some y => y | None => x end
  | None => x
  end.
(** 1605-1630 (GetDefaultRecord). *)
Definition default_record (rtab : list Z) (s : sym) : outcome (list Z) :=
  if (sy_type s =? dt_set) || (sy_type s =? dt_alias) || (sy_type s =? dt_par) then Done [d_zero]
  else if sy_type s =? dt_var then Done (List.map (map_default rtab) (def_var (sy_uinfo s)))
  else if sy_type s =? dt_equ then Done (List.map (map_default rtab) (def_equ (sy_uinfo s)))
  else UB.

(** 1468-1512 (AcronymRemap), for a value at least Zvalacr. *)
Definition tab_at (tab : list Z) (i : Z) : Z := match znth tab i with Some x => x | None => 0 end.
Definition acro_remap (v : Z) (st : gst) : outcome (Z * gst) :=
  match dblInfo v with
  | DBL_NAN => Done (tab_at (e_tab (g_env st)) vm_valna, st)
  | DBL_PINF => Done (tab_at (e_tab (g_env st)) vm_valpin, st)
  | DBL_NINF => Done (tab_at (e_tab (g_env st)) vm_valmin, st)
  | DBL_FINITE =>
      if e_acrnan (g_env st) then Done (tab_at (e_tab (g_env st)) vm_valna, st)
      else match d_round (fdiv v SV_ACR) with
           | None => UB
           | Some org =>
               let l := d_acros (g_dic st) in
               let nxt := e_nextacr (g_env st) in
               let n := acro_entry org l in
               let fresh := upd_env (set_e_nextacr (nxt + 1)) st in
               if n <? 0 then
                 if nxt <=? 0 then Done (fmul SV_ACR (fofZ org), st)
                 else Done (fmul SV_ACR (fofZ nxt),
                            upd_dic (set_d_acros (l ++ [mkAcro [] [] org nxt true])) fresh)
               else match znth l n with
                    | None => UB
                    | Some a =>
                        if ac_rmap a <=? 0 then
                          if nxt <=? 0 then Done (fmul SV_ACR (fofZ org), st)
                          else Done (fmul SV_ACR (fofZ nxt),
                                     upd_dic (set_d_acros (zset n (set_ac_rmap nxt (set_ac_auto true a)) l)) fresh)
                        else Done (fmul SV_ACR (fofZ (ac_rmap a)), st)
                    end
           end
  end.

(** 1437-1452: a stored value as the reader sees it. *)
Definition read_value (v : sval) (st : gst) : outcome (Z * gst) :=
  match v with
  | SMark _ => Done (sval_value (e_rtab (g_env st)) v, st)
  | SNum d => if fleb SV_ACR d then acro_remap d st else Done (d, st)
  end.
Fixpoint read_values (vs : list sval) (st : gst) : outcome (list Z * gst) :=
  match vs with
  | [] => Done ([], st)
  | v :: r => do (x, st) <- read_value v st ;; do (xs, st) <- read_values r st ;; Done (x :: xs, st)
  end.

(** 1453-1462: text numbers of a file with repeated texts.  The bound in the code is the
    capacity of the text list; an index past the array is undefined here. *)
Definition E_TINY : Z := 0x3D719799812DEA11. (* 1e-12 *)
Definition f_abs (x : Z) : Z := x mod 2^63.
Definition remap_text (m : list Z) (x : Z) : outcome Z :=
  match d_round x with
  | None => UB
  | Some k => if fltb (f_abs (fsub x (fofZ k))) E_TINY && (0 <=? k) then
                match znth m k with Some v => Done (fofZ v) | None => UB end
              else Done x
  end.

Definition fix_text (s : sym) (vals : list Z) (st : gst) : outcome (list Z) :=
  match d_maptext (g_dic st), vals with
  | Some m, x :: r => if negb (f_iszero x) && (sy_type s =? dt_set)
                      then do y <- remap_text m x ;; Done (y :: r)
                      else Done vals
  | _, _ => Done vals
  end.

Definition delta_for_read (st : gst) : Z :=
  if f_ver (g_fil st) <=? 6 then 10 else Z.of_nat (w_dim (g_wrk st)).

(** 1382-1466 (DoRead): [None] at the end of the data, else AFDim and the values; the
    indices are in LastElem ([w_last]). *)
Definition do_read (st : gst) : outcome (option (Z * list Z) * gst) :=
  let w := g_wrk st in
  if w_univ w then
    let u := w_unr w + 1 in
    let st := upd_wrk (set_w_unr u) st in
    if u <=? d_uelcnt (g_dic st)
    then Done (Some (1, [d_zero]), upd_wrk (set_w_last [u]) st)
    else Done (None, st)
  else
    do (n, s) <- cur_sym st ;;
    if sy_scalar s then
      do v <- default_record (e_rtab (g_env st)) s ;;
      Done (Some (0, v), upd_dic (upd_sym n (set_sy_scalar false)) st)
    else if negb (Nat.eqb (length (w_last w)) (w_dim w) && Nat.eqb (length (w_mms w)) (w_dim w)) then UB
    else
      do (r, st) <- s_parse_o z (p_record (f_bo (g_fil st)) (delta_for_read st) (w_dim w) (w_dsize w)
                                   (w_mms w) (w_last w)) st ;;
      match r with
      | None => Done (None, st)
      | Some (af, last, vs) =>
          let st := upd_wrk (set_w_last last) st in
          do (vals, st) <- read_values vs st ;;
          do vals <- fix_text s vals st ;;
          Done (Some (af, vals), st)
      end.

(** 1776-1812 (gdxDataReadDone). *)
Fixpoint restore_maps (k : nat) (n : Z) (d : dic) : outcome dic :=
  match k with
  | O => Done d
  | S k' => do d' <- set_user_map (im_get (d_usr d) n) n d ;; restore_maps k' (n - 1) d'
  end.
Definition data_read_done (st : gst) : outcome (bool * gst) :=
  let st := upd_wrk (fun w => set_w_sort None (set_w_cur CNull w)) st in
  if negb (mode_in (g_mode st) [fr_init; fr_raw_data; fr_map_data; fr_mapr_data; fr_str_data; fr_slice])
  then Done (false, set_g_mode fr_init (set_error ERR_BADMODE st))
  else
    let a := w_added (g_wrk st) in
    do d <- (if a =? 0 then Done (g_dic st)
             else restore_maps (Z.to_nat a) (im_high (d_usr (g_dic st))) (g_dic st)) ;;
    let st := upd_wrk (set_w_added 0) (set_g_dic d st) in
    Done (true, set_g_mode fr_init st).

(** ** Preparing to read *)

(** 892-913: following the aliases.  [None]: the universe.  A cyclic chain loops
    forever: out of fuel is [UB]. *)
Fixpoint resolve_alias (d : dic) (fuel : nat) (n : Z) : outcome (option Z) :=
  match fuel with
  | O => UB
  | S k => match get_sym d n with
           | None => UB
           | Some s => if sy_type s =? dt_alias then
                         if sy_uinfo s =? 0 then Done None else resolve_alias d k (sy_uinfo s)
                       else Done (Some n)
           end
  end.

(** 936-963: the domain actions; [None]: unknown filter. *)
Fixpoint domain_actions (l : list filt) (doms : list Z) : option (list dact) :=
  match doms with
  | [] => Some []
  | n :: r =>
      match (if n =? -2 then Some dm_unmapped else if n =? -1 then Some dm_expand
             else if n =? 0 then Some dm_strict
             else match find_filter l n with Some f => Some (dm_filter f) | None => None end) with
      | None => None
      | Some a => match domain_actions l r with Some as_ => Some (a :: as_) | None => None end
      end
  end.

(** 1556-1589 (ResultWillBeSorted).  The status is computed on first use. *)
Fixpoint will_be_sorted (first : bool) (doms : list Z) (acts : list dact) (d : dic) : outcome (bool * dic) :=
  match doms, acts with
  | n :: doms', a :: acts' =>
      if n =? -2 then will_be_sorted false doms' acts' d
      else
        let '(s, d1) := map_status d in
        let q := mstat_nr s in
        if n =? -1 then
          if q =? 1 then Done (false, d1)
          else if first then (if 3 <=? q then will_be_sorted false doms' acts' d1 else Done (false, d1))
          else (if q =? 4 then will_be_sorted false doms' acts' d1 else Done (false, d1))
        else if n =? 0 then
          if q =? 1 then Done (false, d1) else will_be_sorted false doms' acts' d1
        else
          if 2 <=? q then will_be_sorted false doms' acts' d1
          else match a with
               | dm_filter f => if fl_sorted f then will_be_sorted false doms' acts' d1 else Done (false, d1)
               | _ => UB
               end
  | _, _ => Done (true, d)
  end.

(** 1017-1060: mapping the indices of a record from dimension [i] on, for an unsorted
    result.  [el] are the mapped indices so far (AElements). *)
Inductive mapres :=
| MOk (el : list Z) (exp : imap) (addnew : bool)
| MErr (el : list Z) (exp : imap) (addnew : bool) (fidim : nat)   (* one-based *)
| MBad (el : list Z) (exp : imap) (addnew : bool).

Fixpoint map_record (d : dic) (acts : list dact) (last : list Z) (i : nat) (el : list Z) (exp : imap)
    (addnew : bool) : outcome mapres :=
  match acts, last with
  | a :: acts', k :: ks =>
      if k <? 0 then Done (MBad el exp addnew)
      else match a with
           | dm_unmapped => map_record d acts' ks (S i) (set_nth i k el) exp addnew
           | dm_filter f =>
               do v <- user_map d k ;;
               if in_filter f v then map_record d acts' ks (S i) (set_nth i v el) exp addnew
               else Done (MErr el exp addnew (S i))
           | dm_strict =>
               do v <- user_map d k ;;
               if 0 <=? v then map_record d acts' ks (S i) (set_nth i v el) exp addnew
               else Done (MErr el exp addnew (S i))
           | dm_expand =>
               let v := im_get exp k in
               if 0 <=? v then map_record d acts' ks (S i) (set_nth i v el) exp addnew
               else
                 do v <- user_map d k ;;
                 if 0 <=? v then
                   do exp' <- im_set exp k v ;;
                   map_record d acts' ks (S i) (set_nth i v el) exp' addnew
                 else map_record d acts' ks (S i) (set_nth i (- k) el) exp true
           end
  | _, _ => Done (MOk el exp addnew)
  end.

(** 1092-1110: giving new user numbers to the negative entries. *)
Fixpoint replace_all (en v : Z) (l : list Z) : list Z :=
  match l with
  | [] => []
  | x :: r => (if x =? en then v else x) :: replace_all en v r
  end.
Fixpoint assign_new (k : nat) (i : nat) (el : list Z) (exp : imap) (added : Z) (d : dic)
    : outcome (list Z * imap * Z * dic) :=
  match k with
  | O => Done (el, exp, added, d)
  | S k' =>
      match nth_error el i with
      | None => Done (el, exp, added, d)
      | Some en =>
          if en <? 0 then
            do (v, d) <- new_usr_uel (- en) d ;;
            do exp <- im_set exp (- en) v ;;
            assign_new k' (S i) (firstn i el ++ v :: replace_all en v (skipn (S i) el)) exp (added + 1) d
          else assign_new k' (S i) el exp added d
      end
  end.

Definition neg_at (i : nat) (l : list Z) : list Z :=
  match nth_error l i with Some k => set_nth i (- k) l | None => l end.

(** 1010-1116: reading all records into SortList.  The result is the list of records and
    whether everything was fine (AllocOk). *)
Fixpoint read_all_mapped (fuel : nat) (fidim : nat) (el : list Z) (exp : imap) (addnew ok : bool)
    (items : list (list Z * list Z)) (st : gst) : outcome (list (list Z * list Z) * bool * gst) :=
  match fuel with
  | O => UB
  | S k =>
      do (r, st) <- do_read st ;;
      match r with
      | None => Done (items, ok, st)
      | Some (af, vals) =>
          let dim := w_dim (g_wrk st) in
          let af := Nat.min fidim (Z.to_nat af) in
          let last := w_last (g_wrk st) in
          let i := (af - 1)%nat in
          do m <- map_record (g_dic st) (skipn i (w_doms (g_wrk st))) (skipn i last) i el exp addnew ;;
          match m with
          | MBad _ _ _ => Done (items, false, set_error ERR_BADELEMENTINDEX st)
          | MErr el exp addnew fi =>
              (* the dimension right after the failing one is not looked at *)
              let bad := existsb (fun k => k <? 0) (skipn (S fi) last) in
              let st := if bad then set_error ERR_BADELEMENTINDEX st else st in
              let st := add_dom_error (neg_at (fi - 1) last) vals st in
              read_all_mapped k fi el exp addnew (ok && negb bad) items st
          | MOk el exp addnew =>
              do (el, exp, added, d) <- (if addnew then assign_new dim 0 el exp (w_added (g_wrk st)) (g_dic st)
                                         else Done (el, exp, w_added (g_wrk st), g_dic st)) ;;
              let st := upd_wrk (set_w_added added) (set_g_dic d st) in
              read_all_mapped k dim el exp false ok (items ++ [(el, vals)]) st
          end
      end
  end.

(** An upper bound on the number of records that can still be read. *)
Definition read_fuel (st : gst) : nat :=
  (match f_strm (g_fil st) with
   | Some s => match as_view z (as_flush z s) with Some v => length v | None => O end
   | None => O
   end + length (d_uels (g_dic st)) + 2)%nat.

(** 879-1160 (PrepareSymbolRead).  [doms] are the requested actions, at least as many as
    the dimension.  Where the code returns early with FCurrentDim already changed and
    LastElem stale, LastElem is emptied here (a later DoRead is then undefined). *)
Definition prepare_symbol_read (synr : Z) (doms : list Z) (newmode : gmode) (st : gst) : outcome (Z * gst) :=
  do st <- (if mode_in (g_mode st) [fr_str_data; fr_map_data; fr_mapr_data; fr_raw_data]
            then do (_, st) <- data_read_done st ;; Done st else Done st) ;;
  let st := upd_wrk (fun w => set_w_sort None (set_w_cur CNull (set_w_added 0 w))) (upd_err (set_r_list None) st) in
  if negb (mode_in (g_mode st) [fr_init])
  then Done (-1, set_g_mode fr_init (set_error ERR_BADMODE st))
  else
    let st := upd_wrk (set_w_univ (synr =? 0)) st in
    if negb (synr =? 0) && negb (d_nn (g_dic st)) then UB else
    if negb (synr =? 0) && negb ((1 <=? synr) && (synr <=? sym_count (g_dic st)))
    then Done (-1, set_error ERR_BADSYMBOLINDEX st)
    else
      do target <- (if synr =? 0 then Done None
                    else resolve_alias (g_dic st) (S (length (d_names (g_dic st)))) synr) ;;
      match target with
      | None =>
          (* the universe *)
          let st := upd_wrk (fun w => set_w_univ true (set_w_cur CNull (set_w_dim 1 (set_w_dsize 1 (set_w_unr 0 w))))) st in
          if (length doms <? 1)%nat then UB else
          let doms := firstn 1 doms in
          match domain_actions (d_filts (g_dic st)) doms with
          | None => Done (-1, set_error ERR_UNKNOWNFILTER (upd_wrk (set_w_last []) st))
          | Some acts =>
              let st := upd_wrk (set_w_doms acts) st in
              let nrecs := d_uelcnt (g_dic st) in
              if mode_in newmode [fr_map_data] then
                if negb (d_un (g_dic st)) then UB else
                do (sorted, d) <- will_be_sorted true doms acts (g_dic st) ;;
                let st := set_g_dic d st in
                if sorted then Done (nrecs, set_g_mode fr_mapr_data (upd_wrk (set_w_last [-1]) st))
                else
                  do (items, ok, st) <- read_all_mapped (read_fuel st) 1 [0] im_new false true [] st ;;
                  do rs <- sorted_items 1 items ;;
                  if ok then Done (zlen items, set_g_mode fr_map_data
                                     (upd_wrk (fun w => set_w_last [-1] (set_w_sort (Some items)
                                        (set_w_rd (match items with [] => None | _ => Some rs end) w))) st))
                  else Done (-1, set_g_mode fr_init (upd_wrk (set_w_sort None) (set_error ERR_OUT_OF_MEMORY st)))
              else Done (nrecs, set_g_mode newmode (upd_wrk (set_w_last [-1]) st))
          end
      | Some n =>
          match get_sym (g_dic st) n with
          | None => UB
          | Some s =>
              let dim := sy_dim s in
              do dsize <- (match data_size (sy_type s) with Some k => Done k | None => UB end) ;;
              let st := upd_wrk (fun w => set_w_cur (CSym n) (set_w_dim dim (set_w_dsize dsize w))) st in
              do st <- s_setcomp z (sy_comp s) st ;;
              do st <- s_setpos z (sy_pos s) st ;;
              if (length doms <? dim)%nat then UB else
              let doms := firstn dim doms in
              match domain_actions (d_filts (g_dic st)) doms with
              | None => Done (-1, set_error ERR_UNKNOWNFILTER (upd_wrk (set_w_last []) st))
              | Some acts =>
                  let st := upd_wrk (set_w_doms acts) st in
                  let bo := f_bo (g_fil st) in
                  do (mark, st) <- s_parse z p_str st ;;
                  if negb (str_eqb mark MARK_DATA)
                  then Done (-1, set_error ERR_BADDATAMARKER_DATA (upd_wrk (set_w_last []) st)) else
                  do (b, st) <- s_parse z p_byte st ;;
                  if negb (b =? Z.of_nat dim)
                  then Done (-1, set_error ERR_BADDATAMARKER_DIM (upd_wrk (set_w_last []) st)) else
                  do (_, st) <- s_parse z (p_int bo) st ;;
                  if Nat.eqb dim 0 && (sy_count s =? 0) then
                    Done (1, set_g_mode newmode (upd_wrk (fun w => set_w_last [] (set_w_mms [] w)) (upd_dic (upd_sym n (set_sy_scalar true)) st)))
                  else
                    let st := upd_dic (upd_sym n (set_sy_scalar false)) st in
                    let st := upd_wrk (fun w => set_w_last (repeat INDEX_INITIAL dim)
                                (set_w_prev (repeat (-1) dim ++ skipn dim (w_prev w)) w)) st in
                    do (mms, st) <- s_parse z (prepeat dim (p_mm bo)) st ;;
                    let st := upd_wrk (set_w_mms mms) st in
                    let ready st := upd_wrk (set_w_last (repeat (-1) dim)) st in
                    if mode_in newmode [fr_map_data] then
                      do (sorted, d) <- will_be_sorted true doms acts (g_dic st) ;;
                      let st := set_g_dic d st in
                      if sorted then Done (sy_count s, set_g_mode fr_mapr_data (ready st))
                      else
                        do (items, ok, st) <- read_all_mapped (read_fuel st) dim (repeat 0 dim) im_new false true [] st ;;
                        do rs <- sorted_items dim items ;;
                        if ok then Done (zlen items, set_g_mode fr_map_data
                                           (ready (upd_wrk (fun w => set_w_sort (Some items)
                                              (set_w_rd (match items with [] => None | _ => Some rs end) w)) st)))
                        else Done (-1, set_g_mode fr_init (upd_wrk (set_w_sort None) (set_error ERR_OUT_OF_MEMORY st)))
                    else Done (sy_count s, set_g_mode newmode (ready st))
              end
          end
      end.

End Z.
