(** * ReadLoops: reading all the records of a symbol

    The calls that read many records, and the calls that read one record made again and
    again, in terms of the records the symbol has. *)

From Coq Require Import String.
From Verif Require Import Base Prim Values FloatAcr Records LinkedData StrHash IntMap Strings AStream BufStream State
  FileImage ApiCore ApiFile ApiWrite ApiRead Api FileFacts BlockFacts StreamFacts OpenFacts DicInv WriteInv Journal WriteCalls WriteTrace
  WriteSteps Footprint SessInv FileFlow Sessions Vocab Reopen ReadFacts ReadRecs.
Open Scope Z_scope.
Open Scope list_scope.

Section Z.
Context (z : zlib).

(** The records of symbol number [n], of dimension [dim]. *)
Definition has_items (F : list Z) (tab : list (str * sym)) (k n : Z) (dim : nat) (items : list item) : Prop :=
  (n = 0 /\ dim = 1%nat /\ items = List.map label_item (numbers 1 k)) \/
  (exists nm sy recs, znth tab (n - 1) = Some (nm, sy) /\ sy_type sy <> dt_alias /\ (sy_dim sy <= 20)%nat /\ block_at z (z_host z) F sy recs /\
    dim = sy_dim sy /\ items = items_of sy recs).

Lemma start_items : forall F tab k st n dim items m, reads_file z F tab k st -> g_mode st = fr_init -> has_items F tab k n dim items -> m <> fr_map_data ->
  exists st', prepare_symbol_read z n unmapped m st = Done (zlen items, st') /\ source z F n items st' /\ begun m (repeat dm_unmapped dim) st st'.
Proof.
  intros F tab k st n dim items m Q MO [(-> & -> & ->)|(nm & sy & recs & T & TY & D20 & BL & -> & ->)] NM.
  - destruct (start_labels z F tab k st m Q MO NM) as (st' & E & S1 & B). exists st'. split; [|split; [exact S1|exact B]].
    rewrite E. f_equal. f_equal. unfold zlen. rewrite map_length, numbers_length. pose proof (rf_uels _ _ _ _ _ Q). lia.
  - eapply start_block; eassumption.
Qed.

(** A start that succeeds, made in the middle of something: the object was, or was first
    put, between two symbols. *)
Definition symbol_modes : list gmode := [fr_str_data; fr_map_data; fr_mapr_data; fr_raw_data].
Lemma done_reads : forall F tab k st b st', data_read_done st = Done (b, st') -> reads_file z F tab k st -> reads_file z F tab k st'.
Proof.
  intros F tab k st b st' H Q. eapply (reads_call z gdxDataReadDone F tab k st (ret (b2z b)) st'); [reflexivity|exact I|exact Q|].
  cbn [exec]. unfold read_done. rewrite H. reflexivity.
Qed.
Lemma restore_acros : forall k n d d', restore_maps k n d = Done d' -> d_acros d' = d_acros d.
Proof.
  induction k as [|k IH]; intros n d d' H; cbn [restore_maps] in H; [injection H as <-; reflexivity|].
  destruct (set_user_map (im_get (d_usr d) n) n d) as [d1|] eqn:E; [|discriminate]. cbn [obind] in H. apply IH in H. rewrite H.
  unfold set_user_map in E. destruct (znth (d_uels d) _); [|discriminate]. injection E as <-. reflexivity.
Qed.
Lemma start_answered : forall F tab k n doms m c st st', reads_file z F tab k st -> prepare_symbol_read z n doms m st = Done (c, st') -> 0 <= c ->
  exists st1, reads_file z F tab k st1 /\ g_mode st1 = fr_init /\ prepare_symbol_read z n doms m st1 = Done (c, st') /\
    g_env st1 = g_env st /\ d_acros (g_dic st1) = d_acros (g_dic st) /\ g_aft st1 = g_aft st.
Proof.
  intros F tab k n doms m c st st' Q P C. destruct (mode_in (g_mode st) symbol_modes) eqn:M.
  - unfold prepare_symbol_read in P. unfold symbol_modes in M. rewrite M in P.
    destruct (data_read_done st) as [[b s1]|] eqn:D; [|discriminate]. exists s1. split; [eapply done_reads; eassumption|].
    cbn [obind] in P.
    assert (X : g_mode s1 = fr_init /\ g_env s1 = g_env st /\ d_acros (g_dic s1) = d_acros (g_dic st) /\ g_aft s1 = g_aft st).
    { unfold data_read_done in D. cbv zeta in D. change (g_mode (upd_wrk _ st)) with (g_mode st) in D.
      assert (M2 : mode_in (g_mode st) [fr_init; fr_raw_data; fr_map_data; fr_mapr_data; fr_str_data; fr_slice] = true) by (destruct (g_mode st); try discriminate M; reflexivity).
      rewrite M2 in D. cbn [negb] in D. destruct (w_added _ =? 0) eqn:WA.
      - cbn [obind] in D. injection D as <- <-. repeat split; reflexivity.
      - destruct (restore_maps _ _ _) as [d|] eqn:R; [|discriminate]. cbn [obind] in D. injection D as <- <-. apply restore_acros in R. repeat split; try reflexivity. exact R. }
    destruct X as (X1 & X2 & X3 & X4). split; [exact X1|]. split; [|auto].
    unfold prepare_symbol_read. rewrite X1. change (mode_in fr_init [fr_str_data; fr_map_data; fr_mapr_data; fr_raw_data]) with false. cbn [obind]. exact P.
  - destruct (mode_in (g_mode st) [fr_init]) eqn:MI.
    + exists st. split; [exact Q|]. split; [|split; [exact P|auto]]. destruct (g_mode st); try discriminate MI. reflexivity.
    + exfalso. unfold prepare_symbol_read in P. unfold symbol_modes in M. rewrite M in P. cbn [obind] in P. cbv zeta in P.
      change (g_mode (upd_wrk _ _)) with (g_mode st) in P. rewrite MI in P. cbn [negb] in P. injection P as <- _. lia.
Qed.

(** ** What is left of a read that is over *)

Record ended (st st' : gst) : Prop := mkEnded {
  en_mode : g_mode st' = fr_init;
  en_aft : g_aft st' = g_aft st;
  en_env : g_env st' = g_env st;
  en_dic : same_dic (g_dic st) (g_dic st');
  en_err : g_err st' = set_r_list None (g_err st);
  en_sli : g_sli st' = g_sli st
}.

Lemma read_ends : forall m acts st a b, In m [fr_init; fr_raw_data; fr_map_data; fr_mapr_data; fr_str_data; fr_slice] -> begun m acts st a -> kept a b ->
  exists c, data_read_done b = Done (true, c) /\ ended st c /\ w_dim (g_wrk c) = length acts.
Proof.
  intros m acts st a b M B K. unfold data_read_done. cbv zeta. change (g_mode (upd_wrk _ b)) with (g_mode b).
  rewrite (kp_mode _ _ K), (bg_mode _ _ _ _ B). apply mode_in_true in M. rewrite M. cbn [negb].
  change (w_added (g_wrk (upd_wrk (fun w => set_w_sort None (set_w_cur CNull w)) b))) with (w_added (g_wrk b)). rewrite (kp_added _ _ K), (bg_added _ _ _ _ B).
  change (0 =? 0) with true. cbv iota. cbn [obind]. eexists. split; [reflexivity|]. split.
  - destruct B, K. constructor; try reflexivity; cbn; try congruence. eapply same_dic_trans; eassumption.
  - cbn. rewrite (kp_dim _ _ K). apply (bg_dim _ _ _ _ B).
Qed.

(** ** Many records in one call *)

Definition cut {A} (limit : option nat) (l : list A) : list A := match limit with None => l | Some n => firstn (S n) l end.
Definition delivered (st : gst) (want : list Z -> bool) (limit : option nat) (items : list item) : list (list Z * list Z * Z) :=
  List.map (fun it => (snd (fst it), shows st (snd it), fst (fst it))) (cut limit (filter (fun it => want (snd (fst it))) items)).

Lemma read_loop_ok : forall F n want todo fuel limit acc st, source z F n todo st -> quiet todo st -> (length todo < fuel)%nat ->
  exists st1, read_loop z fuel want limit acc st = Done (acc ++ delivered st want limit todo, st1) /\ kept st st1.
Proof.
  intros F n want. induction todo as [|[[af ks] g] todo IH]; intros [|fuel] limit acc st S Q FU; cbn [length] in FU; try lia; cbn [read_loop].
  - destruct (source_end _ _ _ _ S) as (st1 & E & K & _). rewrite E. cbn [obind]. exists st1. split; [|exact K].
    f_equal. f_equal. unfold delivered. cbn [filter]. destruct limit; cbn; symmetry; apply app_nil_r.
  - destruct (source_read _ _ _ _ _ _ _ _ S Q) as (st1 & S1 & CK & _ & K & Q1 & E). rewrite E. cbn [obind]. rewrite CK.
    assert (SH : forall l w, delivered st1 want l w = delivered st want l w).
    { intros l w. unfold delivered. apply map_ext. intros it. rewrite (shows_kept _ _ _ K). reflexivity. }
    unfold delivered. cbn [filter snd fst]. destruct (want ks).
    + destruct limit as [[|lim]|].
      * exists st1. split; [|exact K]. cbn [cut firstn List.map]. reflexivity.
      * destruct (IH fuel (Some lim) (acc ++ [(ks, shows st g, af)]) st1 S1 Q1) as (st2 & E2 & K2); [lia|]. rewrite E2. exists st2.
        split; [|eapply kept_trans; eassumption]. rewrite SH, <- app_assoc. reflexivity.
      * destruct (IH fuel None (acc ++ [(ks, shows st g, af)]) st1 S1 Q1) as (st2 & E2 & K2); [lia|]. rewrite E2. exists st2.
        split; [|eapply kept_trans; eassumption]. rewrite SH, <- app_assoc. reflexivity.
    + destruct (IH fuel limit acc st1 S1 Q1) as (st2 & E2 & K2); [lia|]. rewrite E2. exists st2. split; [|eapply kept_trans; eassumption].
      rewrite SH. reflexivity.
Qed.

Lemma begun_quiet : forall m acts items a b, begun m acts a b -> quiet items a -> quiet items b.
Proof. intros m acts items a b B [Q|Q]; [left; rewrite (bg_env _ _ _ _ B); exact Q|right; exact Q]. Qed.
Lemma begun_delivered : forall m acts a b want limit items, begun m acts a b -> delivered b want limit items = delivered a want limit items.
Proof. intros m acts a b want limit items B. unfold delivered. apply map_ext. intros it. rewrite (begun_shows _ _ _ _ _ B). reflexivity. Qed.

Section Sym.
Context (F : list Z) (tab : list (str * sym)) (k : Z) (st : gst) (n : Z) (dim : nat) (items : list item)
  (R : reads_file z F tab k st) (MO : g_mode st = fr_init) (H : has_items F tab k n dim items) (Q : quiet items st).

Theorem fast_ex_ok : forall limit, exists st', exec z (gdxDataReadRawFastEx n limit) st =
  Done (mkResp 1 [zlen items] [] [] (delivered st (fun _ => true) limit items), st') /\ ended st st'.
Proof.
  intros limit. cbn [exec]. unfold read_raw_fast_ex.
  destruct (start_items F tab k st n dim items fr_raw_data R MO H ltac:(discriminate)) as (s1 & E1 & S1 & B1). rewrite E1. cbn [obind].
  destruct (read_loop_ok F n (fun _ => true) items (read_fuel z s1) limit [] s1 S1 (begun_quiet _ _ _ _ _ B1 Q) (source_fuel z _ _ _ _ S1)) as (s2 & E2 & K2).
  rewrite E2. cbn [obind]. destruct (read_ends fr_raw_data _ st s1 s2 ltac:(cbn; tauto) B1 K2) as (s3 & E3 & N & _). rewrite E3. cbn [obind].
  exists s3. split; [|exact N]. cbn [app]. rewrite (begun_delivered _ _ _ _ _ _ _ B1). destruct (Z.leb_spec 0 (zlen items)); [reflexivity|]. pose proof (zlen_nonneg items). lia.
Qed.

Theorem fast_ok : exists st', exec z (gdxDataReadRawFast n) st =
  Done (mkResp 1 [zlen items] [] [] (List.map (fun it => (snd (fst it), shows st (snd it), 0)) items), st') /\ ended st st'.
Proof.
  cbn [exec]. unfold read_raw_fast.
  destruct (start_items F tab k st n dim items fr_raw_data R MO H ltac:(discriminate)) as (s1 & E1 & S1 & B1). rewrite E1. cbn [obind].
  destruct (read_loop_ok F n (fun _ => true) items (read_fuel z s1) None [] s1 S1 (begun_quiet _ _ _ _ _ B1 Q) (source_fuel z _ _ _ _ S1)) as (s2 & E2 & K2).
  rewrite E2. cbn [obind]. destruct (read_ends fr_raw_data _ st s1 s2 ltac:(cbn; tauto) B1 K2) as (s3 & E3 & N & _). rewrite E3. cbn [obind].
  exists s3. split; [|exact N]. cbn [app]. rewrite (begun_delivered _ _ _ _ _ _ _ B1). unfold delivered, cut. rewrite map_map.
  assert (FT : forall l : list item, filter (fun _ => true) l = l) by (induction l as [|? ? IH]; cbn; [|rewrite IH]; reflexivity). rewrite FT.
  destruct (Z.leb_spec 0 (zlen items)); [reflexivity|]. pose proof (zlen_nonneg items). lia.
Qed.

Theorem filt_ok : forall fs limit, (dim <= length fs)%nat ->
  let nrs := filter_nrs (g_dic st) (firstn dim fs) in
  exists st', exec z (gdxDataReadRawFastFilt n fs limit) st =
    Done (if all_known nrs then mkResp 1 [] [] [] (List.map hide_af (delivered st (fits_filter nrs) limit items)) else ret 0, st') /\ ended st st'.
Proof.
  intros fs limit LF nrs. cbn [exec]. unfold read_raw_fast_filt.
  destruct (start_items F tab k st n dim items fr_raw_data R MO H ltac:(discriminate)) as (s1 & E1 & S1 & B1). rewrite E1. cbn [obind].
  destruct (Z.leb_spec 0 (zlen items)) as [_|]; [|pose proof (zlen_nonneg items); lia]. cbv zeta.
  assert (WD : w_dim (g_wrk s1) = dim) by (rewrite (bg_dim _ _ _ _ B1), repeat_length; reflexivity). rewrite WD.
  destruct (Nat.ltb_spec (length fs) dim); [lia|].
  assert (NR : filter_nrs (g_dic s1) (firstn dim fs) = nrs).
  { unfold nrs, filter_nrs. apply map_ext. intros s. destruct (empty_str s); [reflexivity|]. f_equal. unfold uel_find.
    destruct (same_dic_parts _ _ (bg_dic _ _ _ _ B1)) as (-> & _ & _ & _ & _ & _ & _). reflexivity. }
  rewrite NR. destruct (all_known nrs).
  - destruct (read_loop_ok F n (fits_filter nrs) items (read_fuel z s1) limit [] s1 S1 (begun_quiet _ _ _ _ _ B1 Q) (source_fuel z _ _ _ _ S1)) as (s2 & E2 & K2).
    rewrite E2. cbn [obind]. destruct (read_ends fr_raw_data _ st s1 s2 ltac:(cbn; tauto) B1 K2) as (s3 & E3 & N & _). rewrite E3. cbn [obind].
    exists s3. split; [|exact N]. cbn [app]. rewrite (begun_delivered _ _ _ _ _ _ _ B1). reflexivity.
  - cbn [obind]. destruct (read_ends fr_raw_data _ st s1 s1 ltac:(cbn; tauto) B1 (kept_refl s1)) as (s3 & E3 & N & _). rewrite E3. cbn [obind].
    exists s3. split; [reflexivity|exact N].
Qed.

(** ** One record after the other *)

Definition raw_answer (it : item) : resp := ret_iv 1 (fst (fst it) :: snd (fst it)) (shows st (snd it)).
Definition str_answer (it : item) : resp := ret_isv 1 [fst (fst it)] (List.map (key_label (g_dic st)) (snd (fst it))) (shows st (snd it)).

Lemma raw_calls : forall todo s, source z F n todo s -> quiet todo s -> g_mode s = fr_raw_data -> (forall g, shows s g = shows st g) ->
  exists s1, run z (repeat gdxDataReadRaw (length todo)) s = Done (List.map raw_answer todo, s1) /\ source z F n [] s1 /\ kept s s1.
Proof.
  induction todo as [|[[af ks] g] todo IH]; intros s S1 Q1 M SH.
  - exists s. split; [reflexivity|]. split; [exact S1|apply kept_refl].
  - cbn [length repeat run exec]. unfold read_raw, checked. rewrite M. change (mode_in fr_raw_data [fr_raw_data]) with true. cbv iota.
    destruct (source_read _ _ _ _ _ _ _ _ S1 Q1) as (s1 & S2 & CK & _ & K & Q2 & E). rewrite E. cbn [obind]. rewrite CK.
    destruct (IH s1 S2 Q2) as (s2 & E2 & S3 & K2); [rewrite (kp_mode _ _ K); exact M|intros x; rewrite (shows_kept _ _ _ K); apply SH|].
    rewrite E2. cbn [obind]. exists s2. split; [|split; [exact S3|eapply kept_trans; eassumption]].
    cbn [List.map]. unfold raw_answer at 1. cbn [fst snd]. rewrite SH. reflexivity.
Qed.

Lemma str_calls : forall todo s, source z F n todo s -> quiet todo s -> g_mode s = fr_str_data -> (forall g, shows s g = shows st g) -> d_uels (g_dic s) = d_uels (g_dic st) ->
  exists s1, run z (repeat gdxDataReadStr (length todo)) s = Done (List.map str_answer todo, s1) /\ source z F n [] s1 /\ kept s s1.
Proof.
  induction todo as [|[[af ks] g] todo IH]; intros s S1 Q1 M SH UE.
  - exists s. split; [reflexivity|]. split; [exact S1|apply kept_refl].
  - cbn [length repeat run exec]. unfold read_str, checked. rewrite M. change (mode_in fr_str_data [fr_str_data]) with true. cbv iota.
    destruct (source_read _ _ _ _ _ _ _ _ S1 Q1) as (s1 & S2 & CK & _ & K & Q2 & E). rewrite E. cbn [obind]. rewrite CK.
    assert (UE1 : d_uels (g_dic s1) = d_uels (g_dic st)) by (destruct (same_dic_parts _ _ (kp_dic _ _ K)) as (-> & _); exact UE).
    destruct (IH s1 S2 Q2) as (s2 & E2 & S3 & K2); [rewrite (kp_mode _ _ K); exact M|intros x; rewrite (shows_kept _ _ _ K); apply SH|exact UE1|].
    rewrite E2. cbn [obind]. exists s2. split; [|split; [exact S3|eapply kept_trans; eassumption]].
    cbn [List.map]. unfold str_answer at 1. cbn [fst snd]. rewrite SH.
    assert (KL : List.map (key_label (g_dic s1)) ks = List.map (key_label (g_dic st)) ks).
    { apply map_ext. intros x. unfold key_label, uel_text. rewrite UE1. reflexivity. }
    rewrite KL. reflexivity.
Qed.

Theorem raw_reads_ok : exists s1, exec z (gdxDataReadRawStart n) st = Done (ret_i 1 [zlen items], s1) /\
  (exists s2, run z (repeat gdxDataReadRaw (length items)) s1 = Done (List.map raw_answer items, s2) /\
  exists s3, exec z gdxDataReadRaw s2 = Done (ret 0, s3) /\ ended st s3).
Proof.
  cbn [exec]. unfold read_raw_start, read_start.
  destruct (start_items F tab k st n dim items fr_raw_data R MO H ltac:(discriminate)) as (s1 & E1 & S1 & B1). rewrite E1. cbn [obind].
  exists s1. split. { destruct (Z.leb_spec 0 (zlen items)); [reflexivity|]. pose proof (zlen_nonneg items). lia. }
  destruct (raw_calls items s1 S1 (begun_quiet _ _ _ _ _ B1 Q) (bg_mode _ _ _ _ B1) (fun g => begun_shows _ _ _ _ g B1)) as (s2 & E2 & S2 & K2).
  exists s2. split; [exact E2|]. unfold read_raw, checked. rewrite (kp_mode _ _ K2), (bg_mode _ _ _ _ B1).
  change (mode_in fr_raw_data [fr_raw_data]) with true. cbv iota. destruct (source_end _ _ _ _ S2) as (s3 & E & K1 & _). rewrite E. cbn [obind].
  destruct (read_ends fr_raw_data _ st s1 s3 ltac:(cbn; tauto) B1 (kept_trans _ _ _ K2 K1)) as (s4 & E3 & N & _). rewrite E3. cbn [obind]. exists s4. split; [reflexivity|exact N].
Qed.

Theorem str_reads_ok : exists s1, exec z (gdxDataReadStrStart n) st = Done (ret_i 1 [zlen items], s1) /\
  (exists s2, run z (repeat gdxDataReadStr (length items)) s1 = Done (List.map str_answer items, s2) /\
  exists s3, exec z gdxDataReadStr s2 = Done (ret 0, s3) /\ ended st s3).
Proof.
  cbn [exec]. unfold read_str_start, read_start.
  destruct (start_items F tab k st n dim items fr_str_data R MO H ltac:(discriminate)) as (s1 & E1 & S1 & B1). rewrite E1. cbn [obind].
  exists s1. split. { destruct (Z.leb_spec 0 (zlen items)); [reflexivity|]. pose proof (zlen_nonneg items). lia. }
  destruct (str_calls items s1 S1 (begun_quiet _ _ _ _ _ B1 Q) (bg_mode _ _ _ _ B1) (fun g => begun_shows _ _ _ _ g B1)) as (s2 & E2 & S2 & K2).
  { destruct (same_dic_parts _ _ (bg_dic _ _ _ _ B1)) as (-> & _). reflexivity. }
  exists s2. split; [exact E2|]. unfold read_str, checked. rewrite (kp_mode _ _ K2), (bg_mode _ _ _ _ B1).
  change (mode_in fr_str_data [fr_str_data]) with true. cbv iota. destruct (source_end _ _ _ _ S2) as (s3 & E & K1 & _). rewrite E. cbn [obind].
  destruct (read_ends fr_str_data _ st s1 s3 ltac:(cbn; tauto) B1 (kept_trans _ _ _ K2 K1)) as (s4 & E3 & N & _). rewrite E3. cbn [obind]. exists s4. split; [reflexivity|exact N].
Qed.
End Sym.
End Z.
