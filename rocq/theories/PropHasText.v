(** * The question whether a set has texts: C64 *)

From Coq Require Import String Permutation Sorted.
From Verif Require Import Base Prim Values FloatAcr Records LinkedData StrHash IntMap Strings AStream BufStream State
  FileImage ApiCore ApiFile ApiWrite ApiRead Api FileFacts BlockFacts StreamFacts OpenFacts DicInv WriteInv WriteSteps Journal WriteCalls WriteTrace
  Footprint SessInv FileFlow Sessions Vocab PropErr Reopen ReadFacts ReadRecs ReadLoops Cases PropNames PropMeta PropTexts PropDomain Segment LabelFacts Buffered Contents
  Domains Wrote PropRead PropStrings PropChecks.
Open Scope Z_scope.
Open Scope list_scope.

(** ** Specification *)

(** The first value of a record of a set is the number of its text; 0 (with any sign)
    stands for no text. *)
Definition refers_to_text (kv : list Z * list Z) : Prop := exists x vs, snd kv = x :: vs /\ x <> 0 /\ x <> minus_zero.
Definition has_a_text (typ : Z) (recs : list (list Z * list Z)) : Prop := typ = dt_set /\ exists kv, In kv recs /\ refers_to_text kv.

(** ** The mark of a symbol *)

Definition flag (d : dic) (n : Z) : option (bool * Z) := option_map (fun s => (sy_settext s, sy_type s)) (get_sym d n).
Definition tells (kv : list Z * list Z) : bool := negb (f_iszero (hd 0 (snd kv))).

Lemma flag_upd : forall n m f d, (forall s, get_sym d m = Some s -> sy_settext (f s) = sy_settext s /\ sy_type (f s) = sy_type s) -> flag (upd_sym m f d) n = flag d n.
Proof.
  intros n m f d H. unfold flag. destruct (Z.eq_dec m n) as [->|NE]; [|rewrite get_sym_upd_neq by exact NE; reflexivity].
  destruct (get_sym d n) as [s|] eqn:E.
  - rewrite (get_sym_upd_eq _ _ _ _ E). cbn [option_map]. destruct (H s eq_refl) as [-> ->]. reflexivity.
  - unfold get_sym, upd_sym in *. destruct (znth (d_names d) (n - 1)) as [e|] eqn:Q; [discriminate|]. rewrite Q. reflexivity.
Qed.
Lemma flag_other : forall n m f d, m <> n -> flag (upd_sym m f d) n = flag d n.
Proof. intros n m f d N. unfold flag. rewrite get_sym_upd_neq by exact N. reflexivity. Qed.

Lemma flag_atom : forall c d d' n b, fills c = false -> datom c d d' -> flag d n = Some b -> flag d' n = Some b.
Proof.
  intros c d d' n b FI A H. destruct A; try exact H.
  - unfold flag, get_sym in *. cbn [d_names set_d_names]. destruct (znth (d_names d) (n - 1)) as [e|] eqn:E; [|discriminate].
    rewrite znth_app_l by (apply znth_Some in E; lia). rewrite E. exact H.
  - destruct H2 as [X|H2]; [congruence|]. rewrite flag_upd; [exact H|]. intros s G. split; [apply H2|]. apply (H0 s G).
  - rewrite flag_upd; [exact H|]. intros s G. split; reflexivity.
  - rewrite flag_upd; [exact H|]. intros s G. split; reflexivity.
  - rewrite flag_upd; [exact H|]. intros s G. split; reflexivity.
  - unfold uel_add. destruct (sl_add _ _ _ _). exact H.
  - unfold map_status. rewrite H0. exact H.
Qed.

Section Z.
Context (z : zlib).

Lemma flag_call : forall c r st st' n b, keeps_writing c = true -> call_ok c -> fills c = false -> exec z c st = Done (r, st') ->
  flag (g_dic st) n = Some b -> flag (g_dic st') n = Some b.
Proof.
  intros c r st st' n b K O FI H F. eapply (call_dic z (fun d => flag d n = Some b) c r st st'); [apply keeps_session; exact K|exact O|exact H| |exact F].
  intros d d' A. apply (flag_atom _ _ _ _ _ FI A).
Qed.

(** *** Records *)

Lemma err_dic : forall n st, g_dic (set_error n st) = g_dic st /\ g_wrk (set_error n st) = g_wrk st.
Proof. intros n st. unfold set_error. destruct (n =? 0); split; reflexivity. Qed.
Lemma add_error_dic : forall k v st, g_dic (add_error k v st) = g_dic st /\ g_wrk (add_error k v st) = g_wrk st.
Proof. intros k v st. destruct (err_only_eq _ _ (err_only_add_error k v st)) as (E1 & E2 & E3 & E4 & E5 & E6 & E7). split; assumption. Qed.
Lemma add_dom_error_dic : forall k v st, g_dic (add_dom_error k v st) = g_dic st /\ g_wrk (add_dom_error k v st) = g_wrk st.
Proof. intros k v st. destruct (err_only_eq _ _ (err_only_add_dom_error k v st)) as (E1 & E2 & E3 & E4 & E5 & E6 & E7). split; assumption. Qed.

Lemma do_write_dic : forall k v st ok st', do_write z k v st = Done (ok, st') ->
  (ok = false /\ g_dic st' = g_dic st /\ w_cur (g_wrk st') = w_cur (g_wrk st)) \/
  (ok = true /\ exists m sy, w_cur (g_wrk st) = CSym m /\ get_sym (g_dic st) m = Some sy).
Proof.
  intros k v st ok st' H. unfold do_write in H. cbv zeta in H. destruct (_ || _); [discriminate|].
  destruct (any_violation _ _ _).
  { injection H as <- <-. left. destruct (add_dom_error_dic (negate_violating (g_dic st) (w_wrb (g_wrk st)) (firstn (w_dim (g_wrk st)) k)) (firstn (w_dsize (g_wrk st)) v) (set_error ERR_DOMAINVIOLATION st)) as [-> ->].
    destruct (err_dic ERR_DOMAINVIOLATION st) as [-> ->]. auto. }
  obind_inv H. destruct x.
  { injection H as <- <-. left. match goal with |- context [add_error ?a ?b (set_error ?e st)] => destruct (add_error_dic a b (set_error e st)) as [-> ->]; destruct (err_dic e st) as [-> ->] end. auto. }
  { injection H as <- <-. left. match goal with |- context [add_error ?a ?b (set_error ?e st)] => destruct (add_error_dic a b (set_error e st)) as [-> ->]; destruct (err_dic e st) as [-> ->] end. auto. }
  obind_inv H. apply s_write_inv in E0. destruct E0 as (a & a' & _ & _ & ->). obind_inv H. obind_inv H. destruct x0 as [m sy]. right.
  unfold cur_sym in E1. match type of E1 with context [w_cur (g_wrk ?q)] => change (w_cur (g_wrk q)) with (w_cur (g_wrk st)) in E1; change (g_dic q) with (set_d_acros x (g_dic st)) in E1 end.
  destruct (w_cur (g_wrk st)) as [|m'|]; try discriminate. rewrite get_sym_acros in E1. destruct (get_sym (g_dic st) m') as [s'|] eqn:G; [|discriminate]. injection E1 as -> ->.
  split; [|eauto]. destruct (_ || _); [|injection H as <- _; reflexivity].
  match type of H with (match ?x with _ => _ end) = _ => destruct x; [discriminate|] end. match type of H with (match ?x with _ => _ end) = _ => destruct x end.
  - destruct (Nat.eqb _ _); [obind_inv H|]; injection H as <- _; reflexivity.
  - injection H as <- _. reflexivity.
Qed.

Lemma do_write_other : forall k v st ok st' n, do_write z k v st = Done (ok, st') -> w_cur (g_wrk st) <> CSym n ->
  flag (g_dic st') n = flag (g_dic st) n /\ w_cur (g_wrk st') = w_cur (g_wrk st).
Proof.
  intros k v st ok st' n H N. destruct (do_write_dic _ _ _ _ _ H) as [(_ & -> & E)|(-> & m & sy & C & G)]; [split; [reflexivity|exact E]|].
  destruct (do_write_cases z m sy k v st true st' C G H) as (_ & _ & [(X & _)|(_ & _ & b & last & acs & _ & _ & W & _)]); [discriminate|].
  rewrite (wr_dic _ _ _ _ _ _ W), (wr_wrk _ _ _ _ _ _ W). rewrite flag_other by congruence. split; reflexivity.
Qed.
Lemma sym_after_flag : forall dim k x s, sy_settext (sym_after dim k x s) = sy_settext s || ((sy_type s =? dt_set) || (sy_type s =? dt_alias)) && negb (f_iszero x) /\ sy_type (sym_after dim k x s) = sy_type s.
Proof.
  intros dim k x s. unfold sym_after. destruct ((sy_type s =? dt_set) || (sy_type s =? dt_alias)); [|cbn; rewrite Bool.orb_false_r; split; reflexivity].
  destruct (f_iszero x); cbn [negb andb]; rewrite ?Bool.orb_false_r, ?Bool.orb_true_r; cbn [sy_bits set_sy_settext]; destruct (sy_bits s); try destruct (Nat.eqb dim 1); split; reflexivity.
Qed.

Lemma write_all_other : forall rs st st' n, write_all z rs st = Done st' -> w_cur (g_wrk st) <> CSym n -> flag (g_dic st') n = flag (g_dic st) n /\ w_cur (g_wrk st') = w_cur (g_wrk st).
Proof.
  induction rs as [|[k v] rs IH]; intros st st' n H N; cbn [write_all] in H; [injection H as <-; auto|]. obind_inv H. destruct x as [ok s1].
  destruct (do_write_other _ _ _ _ _ _ E N) as [A B]. destruct (IH _ _ n H ltac:(congruence)) as [C D]. split; congruence.
Qed.
Lemma init_other : forall k st st' n, init_do_write z k st = Done st' -> flag (g_dic st') n = flag (g_dic st) n /\ w_cur (g_wrk st') = w_cur (g_wrk st).
Proof.
  intros k st st' n H. unfold init_do_write in H. cbv zeta in H. obind_inv H. apply s_setpos_inv in E. destruct E as (s & _ & _ & ->). obind_inv H. destruct x as [m sy].
  apply s_write_inv in H. destruct H as (a & a' & _ & _ & ->). split; [|reflexivity].
  match goal with |- flag (g_dic ?q) n = _ => change (g_dic q) with (upd_sym m (set_sy_pos (f_nwp (g_fil st))) (g_dic st)) end. apply flag_upd. intros s0 _. split; reflexivity.
Qed.
Lemma finish_flag : forall st st' n, finish z st = Done st' -> flag (g_dic st') n = flag (g_dic st) n /\ w_cur (g_wrk st') = CNull.
Proof.
  intros st st' n H. unfold finish in H. cbv zeta in H. obind_inv H. apply s_write_inv in E. destruct E as (a & a' & _ & _ & ->). obind_inv H. destruct x as [p s2]. apply s_getpos_inv in E. destruct E as (b & b' & _ & _ & ->).
  obind_inv H. destruct x as [m sy]. obind_inv H. apply s_setcomp_inv in E0. destruct E0 as (c & _ & ->). injection H as <-. split; [|reflexivity].
  match goal with |- flag (g_dic ?q) n = _ => change (g_dic q) with (upd_sym m (fun s => set_sy_count (w_cnt (g_wrk st)) (set_sy_errs (r_cnt (g_err st)) s)) (g_dic st)) end. apply flag_upd. intros s0 _. split; reflexivity.
Qed.
Lemma write_done_other : forall st st' n, write_done z st = Done st' -> w_cur (g_wrk st) <> CSym n -> flag (g_dic st') n = flag (g_dic st) n /\ w_cur (g_wrk st') = CNull.
Proof.
  intros st st' n H N. unfold write_done in H. match type of H with obind ?x ?k = _ => change (obind x (finish z) = Done st') in H end.
  obind_inv H. destruct (finish_flag _ _ n H) as [F C]. split; [|exact C]. rewrite F. clear F C H. destruct (mode_in _ _); [injection E as <-; reflexivity|].
  destruct (w_sort (g_wrk st)) as [items|]; [|discriminate]. obind_inv E. obind_inv E. obind_inv E. injection E as <-.
  destruct (init_other _ _ _ n E0) as [A B]. destruct (write_all_other _ _ _ n E2 ltac:(congruence)) as [C _].
  match goal with |- flag (g_dic ?q) n = _ => change (g_dic q) with (g_dic x2) end. congruence.
Qed.

Lemma enter_keeps : forall a b st, g_dic (enter a b st) = g_dic st /\ g_wrk (enter a b st) = g_wrk st.
Proof. intros a b st. unfold enter. destruct (mode_in _ _); split; reflexivity. Qed.

(** What gdxDataWriteRaw does. *)
Lemma raw_cases : forall k v st r st', exec z (gdxDataWriteRaw k v) st = Done (r, st') ->
  (g_dic st' = g_dic st /\ r = ret 0 /\ ~ In (g_mode st) [fw_dom_raw; fw_raw_data]) \/
  (In (g_mode st) [fw_dom_raw; fw_raw_data] /\ exists s ok, g_dic s = g_dic st /\ g_wrk s = g_wrk st /\ do_write z k v s = Done (ok, st') /\ r = ret (b2z ok)).
Proof.
  intros k v st r st' H. cbn [exec] in H. unfold write_raw, checked in H. cbv zeta in H. destruct (enter_keeps fw_dom_raw fw_raw_data st) as [A B].
  destruct (mode_in (g_mode (enter fw_dom_raw fw_raw_data st)) [fw_raw_data]) eqn:M.
  - right. split.
    { apply mode_in_true in M. unfold enter in M. destruct (mode_in (g_mode st) [fw_dom_raw]) eqn:Q.
      - apply mode_in_true in Q. cbn in Q |- *. intuition.
      - cbn in M |- *. intuition. }
    obind_inv H. destruct x as [ok s]. injection H as <- <-. exists (enter fw_dom_raw fw_raw_data st), ok. auto.
  - left. unfold refuse in H. injection H as <- <-. split; [|split; [reflexivity|]].
    + destruct (err_dic ERR_BADMODE (enter fw_dom_raw fw_raw_data st)) as [X _]. first [rewrite X; exact A|exact A].
    + intros I. assert (X : mode_in (g_mode (enter fw_dom_raw fw_raw_data st)) [fw_raw_data] = true); [|congruence].
      apply mode_in_true. unfold enter. destruct (mode_in (g_mode st) [fw_dom_raw]) eqn:Q; [left; reflexivity|].
      destruct I as [X|[X|[]]]; [rewrite <- X in Q; discriminate Q|]. left. exact X.
Qed.
Lemma done_cases : forall st r st', exec z gdxDataWriteDone st = Done (r, st') ->
  (g_dic st' = g_dic st /\ r = ret 0 /\ ~ In (g_mode st) data_modes) \/ (In (g_mode st) data_modes /\ r = ret 1 /\ write_done z st = Done st').
Proof.
  intros st r st' H. cbn [exec] in H. unfold data_write_done, checked in H. destruct (mode_in _ _) eqn:M.
  - right. apply mode_in_true in M. split; [unfold data_modes; cbn in M |- *; intuition|]. obind_inv H. unfold okay in H. injection H as <- <-. auto.
  - left. unfold refuse in H. injection H as <- <-. destruct (err_dic ERR_BADMODE st) as [-> _]. split; [reflexivity|]. split; [reflexivity|]. intros I.
    assert (X : mode_in (g_mode st) [fw_raw_data; fw_map_data; fw_str_data; fw_dom_raw; fw_dom_map; fw_dom_str] = true); [|congruence].
    apply mode_in_true. unfold data_modes in I. cbn in I |- *. intuition.
Qed.

(** ** The other symbols *)

Lemma jinv_number_data : forall h base J st n, jinv z h base J st -> In (g_mode st) data_modes -> w_cur (g_wrk st) = CSym n -> j_number J = Some n.
Proof.
  intros h base J st n [(t & G & [CO P] & R)|(_ & D)] I C; [|destruct D as (_ & D & _); congruence].
  unfold j_number. pose proof (jr_phase _ _ _ R) as Q. unfold WriteInv.phase in P. destruct (j_phase J) as [| |m dim dsize mms recs ok|m|].
  - destruct Q as [_ Q]. rewrite Q in I. unfold data_modes in I. cbn in I. intuition discriminate.
  - destruct Q as [_ Q]. exfalso. unfold reg_modes in Q. unfold data_modes in I. cbn in Q, I. intuition congruence.
  - destruct Q as (Q & _). rewrite Q in P. destruct P as [(_ & sy & recs' & WC & _) _]. rewrite (wc_cur _ _ _ _ _ _ WC) in C. congruence.
  - destruct Q as (items & Q). rewrite Q in P. destruct P as [BP _]. rewrite (bp_cur _ _ _ _ _ BP) in C. congruence.
  - destruct Q.
Qed.

Lemma quiet_step : forall h base J c st r st' n b, jinv z h base J st -> keeps_writing c = true -> call_ok c -> exec z c st = Done (r, st') ->
  j_number J <> Some n -> flag (g_dic st) n = Some b -> j_number (jstep c r J) <> Some n /\ flag (g_dic st') n = Some b.
Proof.
  intros h base J c st r st' n b JI K O H N F. split.
  - intros X. apply jstep_number in X. destruct X as [X|[P X]]; [contradiction|]. rewrite (jinv_count _ _ _ _ _ JI) in X by congruence.
    unfold flag, get_sym in F. destruct (znth (d_names (g_dic st)) (n - 1)) eqn:E; [|discriminate]. apply znth_Some in E. unfold sym_count in X. lia.
  - destruct (fills c) eqn:FI; [|eapply flag_call; eassumption].
    destruct c; try discriminate FI; try discriminate K.
    + destruct (raw_cases _ _ _ _ _ H) as [(-> & _)|(M & s & ok & E1 & E2 & D & _)]; [exact F|].
      destruct (do_write_other _ _ _ _ _ n D) as [X _]; [|congruence]. rewrite E2. intros C. apply N. eapply jinv_number_data; [exact JI| |exact C].
      unfold data_modes. cbn in M |- *. intuition.
    + destruct (done_cases _ _ _ H) as [(-> & _)|(M & _ & D)]; [exact F|].
      destruct (write_done_other _ _ n D) as [X _]; [|congruence]. intros C. apply N. eapply jinv_number_data; eassumption.
Qed.
Lemma quiet_run : forall cs h base J st rs st' n b, jinv z h base J st -> Forall while_writing cs -> run z cs st = Done (rs, st') ->
  j_number J <> Some n -> flag (g_dic st) n = Some b -> flag (g_dic st') n = Some b.
Proof.
  induction cs as [|c cs IH]; intros h base J st rs st' n b JI FW H N F; [injection H as <- <-; exact F|].
  destruct (run_cons _ _ _ _ _ _ H) as (r & s1 & rs' & E & R & ->). inversion FW as [|? ? [K O] FW2]; subst.
  destruct (quiet_step _ _ _ _ _ _ _ _ _ JI K O E N F) as [N1 F1]. eapply IH; [eapply jinv_step; eassumption|exact FW2|exact R|exact N1|exact F1].
Qed.

(** ** The start of a symbol *)

Lemma prepare_flag : forall name text dim typ uinfo st st', prepare_symbol_write z name text dim typ uinfo st = Done (true, st') ->
  flag (g_dic st') (sym_count (g_dic st) + 1) = Some (false, typ).
Proof.
  intros name text dim typ uinfo st st' H. unfold prepare_symbol_write in H. cbv zeta in H.
  destruct (negb _); [discriminate|]. match type of H with context [good_new_symbol name ?s0] => destruct (good_new_symbol name s0) as [gb s1] eqn:G end.
  destruct gb; cbn [negb] in H; [|discriminate]. apply new_symbol_true in G. destruct G as (-> & _). destruct (negb _); [discriminate|]. destruct (negb _); [discriminate|].
  obind_inv H. injection H as <-. apply s_setcomp_inv in E. destruct E as (sm & _ & ->).
  unfold flag, get_sym. match goal with |- context [d_names (g_dic (s_log ?a ?o (upd_wrk ?f ?q)))] => change (d_names (g_dic (s_log a o (upd_wrk f q)))) with (d_names (g_dic q)) end.
  cbn [g_dic upd_dic upd set_g_dic d_names set_d_names]. match goal with |- context [znth (?l ++ [?e]) ?i] => assert (Z0 : znth (l ++ [e]) i = Some e) end.
  { apply StrHash.znth_snoc. right. split; [|reflexivity]. unfold sym_count. cbn. lia. }
  rewrite Z0. reflexivity.
Qed.
Lemma start_flag : forall c name text dim typ uinfo st r st', starting c name text dim typ uinfo -> exec z c st = Done (r, st') -> r_code r = 1 ->
  flag (g_dic st') (sym_count (g_dic st) + 1) = Some (false, typ).
Proof.
  intros c name text dim typ uinfo st r st' S H C.
  assert (ONE : r = ret 0 -> False) by (intros ->; discriminate C).
  destruct S as [->|[(mins & maxs & ->)|[->| ->]]]; cbn [exec] in H;
  [unfold write_raw_start in H|unfold write_raw_start_bounds in H|unfold write_map_start in H|unfold write_str_start in H];
  obind_inv H; destruct x as [ok s1]; (destruct ok; cbn [negb] in H; [|injection H as <- _; exfalso; apply ONE; reflexivity]); apply prepare_flag in E.
  - obind_inv H. unfold okay in H. injection H as _ <-. destruct (init_other _ _ _ (sym_count (g_dic st) + 1) E0) as [X _]. cbn in X |- *. congruence.
  - cbv zeta in H. destruct (_ || _); [discriminate|]. obind_inv H. unfold okay in H. injection H as _ <-. destruct (init_other _ _ _ (sym_count (g_dic st) + 1) E0) as [X _]. cbn in X |- *. congruence.
  - unfold okay in H. injection H as _ <-. exact E.
  - unfold okay in H. injection H as _ <-. exact E.
Qed.

(** ** The records of a symbol *)

Lemma raw_body_flag : forall cs h base J st rs st' n b typ, jinv z h base J st -> j_number J = Some n -> in_raw J -> Forall while_writing cs ->
  Forall (fun c => within c = true) cs -> typ <> dt_alias -> run z cs st = Done (rs, st') -> flag (g_dic st) n = Some (b, typ) ->
  flag (g_dic st') n = Some (b || (typ =? dt_set) && existsb tells (accepted_raw cs rs), typ) /\
  exists J', jinv z h base J' st' /\ j_number J' = Some n /\ in_raw J'.
Proof.
  induction cs as [|c cs IH]; intros h base J st rs st' n b typ JI N IR FW WI TA H F.
  { injection H as <- <-. cbn [accepted_raw existsb]. rewrite Bool.andb_false_r, Bool.orb_false_r. split; [exact F|]. exists J. auto. }
  destruct (run_cons _ _ _ _ _ _ H) as (r & s1 & rs' & E & R & ->). inversion FW as [|? ? [K O] FW2]; subst. inversion WI as [|? ? W1 WI2]; subst.
  pose proof (jinv_step z _ _ _ _ _ _ _ JI K O E) as JI1. pose proof (in_raw_step _ r _ W1 IR) as IR1.
  assert (N1 : j_number (jstep c r J) = Some n).
  { pose proof IR1 as (n1 & d1 & ds1 & mm1 & rc1 & ok1 & P1). assert (X : j_number (jstep c r J) = Some n1) by (unfold j_number; rewrite P1; reflexivity).
    rewrite X. apply jstep_number in X. destruct X as [X|[X _]]; [congruence|]. destruct IR as (? & ? & ? & ? & ? & ? & Y). congruence. }
  assert (ST : flag (g_dic s1) n = Some (b || (typ =? dt_set) && existsb tells (match c with gdxDataWriteRaw keys vals => if r_code r =? 1 then [(keys, vals)] else [] | _ => [] end), typ)).
  { assert (OTHER : fills c = false -> flag (g_dic s1) n = Some (b, typ)) by (intros X; eapply flag_call; eassumption).
    assert (NONE : Some (b, typ) = Some (b || (typ =? dt_set) && existsb tells [], typ)) by (cbn [existsb]; rewrite Bool.andb_false_r, Bool.orb_false_r; reflexivity).
    destruct c; try discriminate W1; try discriminate K; try (rewrite <- NONE; apply OTHER; reflexivity).
    destruct (raw_cases _ _ _ _ _ E) as [(-> & -> & _)|(M & s & ok & E1 & E2 & D & ->)]; [rewrite F; exact NONE|].
    destruct (do_write_dic _ _ _ _ _ D) as [(-> & -> & _)|(-> & m & sy & C & G)]; [rewrite E1, F; exact NONE|]. cbn [b2z ret r_code]. rewrite Z.eqb_refl. cbn [existsb]. rewrite Bool.orb_false_r.
    destruct (jinv_current z _ _ _ _ _ JI N) as (C0 & _ & _). assert (m = n) by congruence. subst m.
    destruct JI as [(t & GG & [CO P] & RR)|(L & _)]; [|destruct IR as (? & ? & ? & ? & ? & ? & Y); congruence].
    destruct IR as (n1 & d1 & ds1 & mm1 & rc1 & ok1 & P1). pose proof (jr_phase _ _ _ RR) as Q. rewrite P1 in Q. destruct Q as (Q & _). unfold WriteInv.phase in P. rewrite Q in P. destruct P as [(_ & sy' & recs' & WC & _) _].
    assert (n1 = n) by (pose proof (wc_cur _ _ _ _ _ _ WC); congruence). subst n1. assert (sy' = sy) by (pose proof (wc_sym _ _ _ _ _ _ WC); congruence). subst sy'.
    destruct (do_write_cases z n sy _ _ _ _ _ C G D) as (_ & L2 & [(X & _)|(_ & _ & bb & last & acs & _ & _ & W & _)]); [discriminate|].
    rewrite (wr_dic _ _ _ _ _ _ W). unfold flag. rewrite (get_sym_upd_eq _ _ _ sy) by (rewrite get_sym_acros; exact G). cbn [option_map].
    unfold flag in F. rewrite <- E1, G in F. cbn [option_map] in F. injection F as F1 F2. destruct (sym_after_flag (w_dim (g_wrk s)) (hd 0 last) (hd 0 (firstn (w_dsize (g_wrk s)) vals)) sy) as [-> ->]. rewrite F1, F2.
    destruct (Z.eqb_spec typ dt_alias) as [X|_]; [contradiction|]. rewrite Bool.orb_false_r. destruct (Z.eqb_spec typ dt_set) as [TS|_]; [|reflexivity]. cbn [andb].
    pose proof (wc_size _ _ _ _ _ _ WC) as SZ. rewrite <- E2 in SZ. rewrite F2, TS in SZ. unfold dt_set in SZ. cbn in SZ. injection SZ as SZ. rewrite <- SZ. unfold tells. cbn [snd].
    destruct vals as [|x vals]; reflexivity. }
  destruct (IH _ _ _ _ _ _ _ _ _ JI1 N1 IR1 FW2 WI2 TA R ST) as [X Y]. split; [|exact Y]. rewrite X. cbn [accepted_raw]. rewrite existsb_app. rewrite Bool.andb_orb_distrib_r, Bool.orb_assoc. reflexivity.
Qed.

Definition in_buf (J : journal) : Prop := exists n, j_phase J = JBuf n.
Lemma in_buf_step : forall c r J, within c = true -> in_buf J -> in_buf (jstep c r J).
Proof. intros c r J W (n & P). unfold in_buf, jstep. rewrite P. destruct c; try discriminate W; rewrite ?P; eauto; repeat match goal with |- context [if ?b then _ else _] => destruct b end; cbn [j_phase]; eauto. Qed.
Lemma in_buf_mode : forall h base J st, jinv z h base J st -> in_buf J -> In (g_mode st) [fw_dom_map; fw_map_data; fw_dom_str; fw_str_data].
Proof.
  intros h base J st JI (n & P). destruct JI as [(t & G & [_ PH] & R)|(L & _)]; [|congruence].
  pose proof (jr_phase _ _ _ R) as Q. rewrite P in Q. destruct Q as (i & Q). unfold WriteInv.phase in PH. rewrite Q in PH. destruct PH as [BP _]. exact (bp_mode _ _ _ _ _ BP).
Qed.
Lemma buf_body_flag : forall cs h base J st rs st' n b, jinv z h base J st -> in_buf J -> Forall while_writing cs ->
  Forall (fun c => within c = true) cs -> run z cs st = Done (rs, st') -> flag (g_dic st) n = Some b -> flag (g_dic st') n = Some b.
Proof.
  induction cs as [|c cs IH]; intros h base J st rs st' n b JI IR FW WI H F; [injection H as <- <-; exact F|].
  destruct (run_cons _ _ _ _ _ _ H) as (r & s1 & rs' & E & R & ->). inversion FW as [|? ? [K O] FW2]; subst. inversion WI as [|? ? W1 WI2]; subst.
  eapply IH; [eapply jinv_step; eassumption|apply in_buf_step; eassumption|exact FW2|exact WI2|exact R|].
  destruct (fills c) eqn:FI; [|eapply flag_call; eassumption]. destruct c; try discriminate FI; try discriminate K; try discriminate W1.
  destruct (raw_cases _ _ _ _ _ E) as [(-> & _)|(M & _)]; [exact F|]. exfalso. pose proof (in_buf_mode _ _ _ _ JI IR) as M2. cbn in M, M2. intuition congruence.
Qed.

(** ** The end of a symbol *)

Lemma stored_flag : forall dim recs s, sy_settext (stored_sym dim recs s) = sy_settext s || ((sy_type s =? dt_set) || (sy_type s =? dt_alias)) && existsb tells recs /\ sy_type (stored_sym dim recs s) = sy_type s.
Proof.
  intros dim. unfold stored_sym. induction recs as [|kv recs IH]; intros s; cbn [fold_left existsb]; [rewrite Bool.andb_false_r, Bool.orb_false_r; auto|].
  destruct (IH (sym_after dim (hd 0 (fst kv)) (hd 0 (snd kv)) s)) as [-> ->]. destruct (sym_after_flag dim (hd 0 (fst kv)) (hd 0 (snd kv)) s) as [-> ->].
  split; [|reflexivity]. rewrite Bool.andb_orb_distrib_r, Bool.orb_assoc. reflexivity.
Qed.
Lemma buf_done_flag : forall h base G n items st r st' b typ, winv z h base G st -> gC G = GBuf n items -> ~ In (Some n) (w_wrb (g_wrk st)) ->
  exec z gdxDataWriteDone st = Done (r, st') -> flag (g_dic st) n = Some (b, typ) -> typ <> dt_alias ->
  exists rs, stable_sort_of items rs /\ flag (g_dic st') n = Some (b || (typ =? dt_set) && existsb tells (keep (g_dic st) (w_wrb (g_wrk st)) None rs), typ) /\ w_cur (g_wrk st') = CNull.
Proof.
  intros h base G n items st r st' b typ [CO P] GC NI H F TA. unfold WriteInv.phase in P. rewrite GC in P. destruct P as [BP RN]. pose proof (bp_mode _ _ _ _ _ BP) as M.
  destruct (done_cases _ _ _ H) as [(_ & _ & X)|(_ & _ & D)]; [exfalso; apply X; unfold data_modes; cbn in M |- *; intuition|].
  rewrite write_done_buf in D by exact M. obind_inv D. rename x into st1.
  destruct (flush_items_spec z _ _ _ _ _ _ _ CO BP RN E) as (sy & sy' & recs & rs & A1 & _ & WC & _ & A5 & A6 & _). destruct (A6 NI) as (_ & X2 & _).
  destruct (finish_flag _ _ n D) as [FF C]. exists rs. split; [exact A5|]. split; [|exact C]. rewrite FF. unfold flag. rewrite (wc_sym _ _ _ _ _ _ WC). cbn [option_map]. rewrite X2.
  unfold flag in F. rewrite A1 in F. cbn [option_map] in F. injection F as F1 F2.
  destruct (stored_flag (w_dim (g_wrk st)) (keep (g_dic st) (w_wrb (g_wrk st)) None rs) (set_sy_pos (zlen base) sy)) as [-> ->]. cbn [sy_settext sy_type set_sy_pos]. rewrite F1, F2.
  destruct (Z.eqb_spec typ dt_alias) as [X|_]; [contradiction|]. rewrite Bool.orb_false_r. reflexivity.
Qed.

Lemma flag_answer : forall st n b typ, flag (g_dic st) n = Some (b, typ) -> answers z st (gdxSetHasText n) (ret (b2z b)).
Proof. intros st n b typ F. exists st. cbn [exec]. unfold set_has_text. unfold flag in F. destruct (get_sym (g_dic st) n) as [s|]; [|discriminate]. injection F as <- <-. reflexivity. Qed.

(** From the end of the symbol to the file. *)
Lemma flag_found : forall name prod compr pre sp seg rseg sq post st st2 J n b typ, in_parts z name prod compr pre sp seg rseg sq post st st2 -> jinv z (new_head prod compr) [] J sq ->
  flag (g_dic sq) n = Some (b, typ) -> w_cur (g_wrk sq) = CNull -> answers z st2 (gdxSetHasText n) (ret (b2z b)).
Proof.
  intros name prod compr pre sp seg rseg sq post st st2 J n b typ IP JI F C. destruct (parts_jinv _ _ _ _ _ _ _ _ _ _ _ _ IP) as (rpre & J0 & _ & _ & _ & FP & _).
  pose proof IP as (rp & rq & _ & _ & R & RO). apply (C20_metadata_is_found_again _ _ _ _ _ _ _ _ (gdxSetHasText n) RO Logic.I). eapply flag_answer.
  eapply quiet_run; [exact JI|exact FP|exact R| |exact F]. intros X. apply (jinv_current z _ _ _ _ _ JI) in X. destruct X as (X & _). congruence.
Qed.
End Z.

Lemma tells_spec : forall recs, existsb tells recs = true <-> exists kv, In kv recs /\ refers_to_text kv.
Proof.
  intros recs. rewrite existsb_exists. split; intros (kv & I & H); exists kv; (split; [exact I|]); unfold tells, refers_to_text, f_iszero, minus_zero in *.
  - destruct (snd kv) as [|x vs]; [discriminate H|]. exists x, vs. split; [reflexivity|]. cbn [hd] in H. apply Bool.negb_true_iff, Bool.orb_false_iff in H. destruct H as [H1 H2]. split; [apply Z.eqb_neq; exact H1|apply Z.eqb_neq; exact H2].
  - destruct H as (x & vs & -> & H1 & H2). cbn [hd]. apply Bool.negb_true_iff, Bool.orb_false_iff. split; apply Z.eqb_neq; assumption.
Qed.

Section Z2.
Context (z : zlib).

Lemma raw_flagged : forall st2 n dim typ wt recs, wrote_raw z st2 n dim typ wt recs -> answers z st2 (gdxSetHasText n) (ret (b2z ((typ =? dt_set) && existsb tells recs))).
Proof.
  intros st2 n dim typ wt recs (name & prod & compr & pre & sp & c & id & text & uinfo & mms & body & r & rbody & rd & sq & post & st & IP & RS & C & L & WI & SY & SV & -> & BO & IN).
  apply symbols_iff in SY. assert (NE : n = sym_count (g_dic sp) + 1) by lia. subst n.
  pose proof IP as (rp & rq & _ & R0 & _ & RO). destruct (parts_jinv _ _ _ _ _ _ _ _ _ _ _ _ IP) as (rpre & J0 & _ & JI & FS & _ & _).
  destruct (seg_split _ _ _ _ _ _ _ _ R0 L) as (s1 & sd & E1 & R1 & E3).
  inversion FS as [|? ? FS1 FS']; subst. apply Forall_app in FS'. destruct FS' as [FB FD]. inversion FD as [|? ? FD1 _]; subst.
  pose proof (raw_starting _ _ _ _ _ _ _ RS) as ST. pose proof (start_idle _ _ _ _ _ _ _ _ _ _ _ _ _ JI ST E1 C) as (PI & CN & MS & _).
  assert (TA : typ <> dt_alias) by (destruct MS as (_ & _ & _ & _ & _ & T); unfold dt_alias, dt_equ in *; lia).
  pose proof (jinv_step z _ _ _ _ _ _ _ JI (proj1 FS1) (proj2 FS1) E1) as JI1.
  assert (P1 : j_phase (jstep c r J0) = JRaw (sym_count (g_dic sp) + 1) (Z.to_nat dim) (size_of typ) mms [] true).
  { unfold jstep. rewrite PI. destruct RS; unfold j_start, j_raw; rewrite PI; destruct (Z.eqb_spec (r_code r) 1); try contradiction; rewrite BO, CN; reflexivity. }
  pose proof (start_flag z _ _ _ _ _ _ _ _ _ ST E1 C) as F1.
  destruct (raw_body_flag z _ _ _ _ _ _ _ _ _ _ JI1 ltac:(unfold j_number; rewrite P1; reflexivity) ltac:(unfold in_raw; eauto 8) FB WI TA R1 F1) as (F2 & J2 & JI2 & N2 & IR2).
  cbn [orb] in F2. pose proof (in_raw_mode z _ _ _ _ JI2 IR2) as M.
  destruct (done_cases z _ _ _ E3) as [(_ & _ & X)|(_ & _ & D)]; [exfalso; apply X; unfold data_modes; cbn in M |- *; intuition|].
  rewrite write_done_raw in D by (cbn in M |- *; intuition). destruct (finish_flag z _ _ (sym_count (g_dic sp) + 1) D) as [FF CC]. rewrite F2 in FF.
  pose proof (jinv_step z _ _ _ _ _ _ _ JI2 (proj1 FD1) (proj2 FD1) E3) as JI3.
  match goal with |- answers z st2 _ (ret (b2z (_ && existsb tells ?l))) => replace (existsb tells l) with (existsb tells (accepted_raw body rbody)) end.
  - exact (flag_found z _ _ _ _ _ _ _ _ _ _ _ _ _ _ _ IP JI3 FF CC).
  - clear. induction (accepted_raw body rbody) as [|kv l IH]; [reflexivity|]. cbn [List.map existsb]. rewrite <- IH. f_equal. unfold tells. cbn [snd].
    unfold values_per. destruct (_ || _); destruct (snd kv); reflexivity.
Qed.

(** A symbol whose records were collected. *)
Lemma buf_flagged : forall name prod compr pre sp c id text dim typ uinfo body r rbody rd sq post st st2 s1 sd t G items doms,
  in_parts z name prod compr pre sp (c :: body ++ [gdxDataWriteDone]) (r :: rbody ++ [rd]) sq post st st2 ->
  starting c id text dim typ uinfo -> (forall J, j_phase J = JIdle -> in_buf (jstep c r J)) -> r_code r = 1 -> exec z c sp = Done (r, s1) -> run z body s1 = Done (rbody, sd) -> exec z gdxDataWriteDone sd = Done (rd, sq) ->
  Forall (fun c => within c = true) body ->
  let n := sym_count (g_dic sp) + 1 in
  winv z (new_head prod compr) ([] ++ t) G sd -> gC G = GBuf n items -> w_dim (g_wrk sd) = Z.to_nat dim -> Forall2 (dom_check (g_dic sd)) (w_wrb (g_wrk sd)) doms -> ~ In (Some n) (w_wrb (g_wrk sd)) ->
  forall recs, sorted_once dim (in_domains doms items) recs -> answers z st2 (gdxSetHasText n) (ret (b2z ((typ =? dt_set) && existsb tells recs))).
Proof.
  intros name prod compr pre sp c id text dim typ uinfo body r rbody rd sq post st st2 s1 sd t G items doms IP ST JB C E1 R1 E3 WI n W GC WD DC NI recs SO.
  destruct (parts_jinv _ _ _ _ _ _ _ _ _ _ _ _ IP) as (rpre & J0 & _ & JI & FS & _ & _).
  inversion FS as [|? ? FS1 FS']; subst. apply Forall_app in FS'. destruct FS' as [FB FD]. inversion FD as [|? ? FD1 _]; subst.
  pose proof (start_idle _ _ _ _ _ _ _ _ _ _ _ _ _ JI ST E1 C) as (PI & CN & MS & _).
  assert (TA : typ <> dt_alias) by (destruct MS as (_ & _ & _ & _ & _ & T); unfold dt_alias, dt_equ in *; lia).
  assert (DP : 0 <= dim) by (destruct MS as (_ & _ & _ & _ & D & _); lia).
  pose proof (jinv_step z _ _ _ _ _ _ _ JI (proj1 FS1) (proj2 FS1) E1) as JI1.
  pose proof (start_flag z _ _ _ _ _ _ _ _ _ ST E1 C) as F1. fold n in F1.
  pose proof (buf_body_flag z _ _ _ _ _ _ _ _ _ JI1 (JB _ PI) FB WI R1 F1) as F2.
  destruct (buf_done_flag z _ _ _ _ _ _ _ _ _ _ W GC NI E3 F2 TA) as (rs & SR & F3 & CC). cbn [orb] in F3.
  pose proof (jinv_run z _ _ _ _ _ _ _ JI1 FB R1) as JI2. pose proof (jinv_step z _ _ _ _ _ _ _ JI2 (proj1 FD1) (proj2 FD1) E3) as JI3.
  pose proof (item_length z _ _ _ _ _ _ W GC) as IL.
  assert (LEN : Forall (fun r : list Z * list Z => length (fst r) = Z.to_nat dim) items) by (eapply Forall_impl; [|exact IL]; intros a (X & _); congruence).
  pose proof (keep_sorted_once (g_dic sd) (w_wrb (g_wrk sd)) dim items rs DP SR LEN) as SO2.
  rewrite (filter_ext_Forall _ _ (fun it => allowed doms (fst it)) _ IL) in SO2.
  2:{ intros x (_ & NN & _). rewrite (allowed_spec _ _ _ _ DC NN), Bool.negb_involutive. reflexivity. }
  rewrite (sorted_once_unique _ _ _ _ SO SO2). exact (flag_found z _ _ _ _ _ _ _ _ _ _ _ _ _ _ _ IP JI3 F3 CC).
Qed.

Lemma str_flagged : forall sd sq st2 n dim typ wt doms handed, str_written z sd sq st2 n dim typ wt doms handed ->
  exists items, Forall2 (numbered_by z st2) handed items /\ (forall recs, sorted_once dim (in_domains doms items) recs -> answers z st2 (gdxSetHasText n) (ret (b2z ((typ =? dt_set) && existsb tells recs)))).
Proof.
  intros sd sq st2 n dim typ wt doms handed (name & prod & compr & pre & sp & id & text & uinfo & dcs & body & r & rdcs & rbody & rd & post & st & s1 &
    IP & E1 & R1 & C & L & WI & NR & SY & SV & DG & ->).
  apply symbols_iff in SY. assert (NE : n = sym_count (g_dic sp) + 1) by lia. subst n.
  pose proof IP as (rp & rq & _ & R0 & _ & RO). pose proof RO as (WST & _).
  destruct (parts_jinv _ _ _ _ _ _ _ _ _ _ _ _ IP) as (rpre & J0 & WP & JI & FS & FP & _ & D2 & _).
  destruct (given_within _ _ _ _ _ _ _ _ _ _ _ _ DG) as (GW & GR & GL & GA & _).
  destruct (seg_split _ _ _ _ _ _ _ _ R0 ltac:(rewrite !app_length; congruence)) as (s1' & sd' & E1' & R1' & E3).
  rewrite E1 in E1'. injection E1' as <-. rewrite R1 in R1'. injection R1' as <-.
  destruct (writes_labels _ _ _ _ _ _ _ WP) as (LI & _ & _). destruct (writes_labels _ _ _ _ _ _ _ WST) as (LST & _ & UST).
  inversion FS as [|? ? FS1 FS']; subst. apply Forall_app in FS'. destruct FS' as [FB FD].
  assert (ST : starting (gdxDataWriteStrStart id text dim typ uinfo) id text dim typ uinfo) by (right; right; right; reflexivity).
  destruct (str_begin _ _ _ _ _ _ _ _ _ _ _ _ JI LI FS1 E1 C) as (t & SS & B1 & B2 & B3 & B4).
  apply Forall_and_inv in WI. destruct WI as [WI1 WI2]. apply Forall_app in NR. destruct NR as [NR1 NR2].
  assert (CU : w_cur (g_wrk s1) = CSym (sym_count (g_dic sp) + 1)) by (destruct SS as [(G0 & W0 & GC0) _ _ _ _]; eapply buf_cur; eassumption).
  assert (WW : forall s2, run z body s2 = Done (rbody, sd) -> run z dcs s1 = Done (rdcs, s2) -> w_wrb (g_wrk sd) = w_wrb (g_wrk s2)).
  { intros s2 Q1 Q2. apply Forall_app in FB. destruct FB as [FB1 FB2]. destruct (str_body z _ _ _ _ _ _ _ _ SS FB1 GW GR Q2) as (i0 & S2 & _).
    destruct (str_body z _ _ _ _ _ _ _ _ S2 FB2 WI1 NR1 Q1) as (_ & _ & _ & X & _). apply X. exact WI2. }
  destruct (str_body z _ _ _ _ _ _ _ _ SS FB ltac:(apply Forall_app; split; assumption) ltac:(apply Forall_app; split; assumption) R1) as (items & [(G & W & GC) _ LSD _ _] & (X1 & X2 & X3) & _ & N). cbn [app] in GC.
  rewrite GA in N.
  assert (CUD : w_cur (g_wrk sd) <> CNull) by (rewrite (buf_cur _ _ _ _ _ _ _ W GC); discriminate).
  destruct (given_after _ _ _ _ _ _ _ _ _ _ _ _ _ _ _ _ _ _ _ _ _ _ _ _ _ _ IP ST C E1 R1 L CU B1 B3 CUD DG WW ltac:(cbn [run]; rewrite E3; reflexivity)) as [DC NI].
  exists items. split.
  - rewrite B1, B2 in N.
    assert (DD : during z ([gdxDataWriteDone] ++ post) sd st).
    { eapply during_trans; [|exact D2]. destruct (keeps_all _ FD) as [A1 A2]. split; [exact A1|]. split; [exact A2|]. exists [rd]. cbn [run]. rewrite E3. reflexivity. }
    apply (numbered_during z _ _ _ _ _ _ _ DD) in N; [|constructor; [reflexivity|exact NR2]|exact LSD].
    apply Forall2_map_l. eapply Forall2_weaken; [|exact N]. intros x y [Y1 Y2]. split; [|exact Y2]. cbn [fst]. eapply Forall2_weaken; [|exact Y1].
    intros s k F. apply (proj2 (C20_labels_are_found_again _ _ _ _ _ _ _ _ RO)). apply label_found_spec; assumption.
  - refine (buf_flagged _ _ _ _ _ _ _ _ _ _ _ _ _ _ _ _ _ _ _ _ _ _ _ _ _ IP ST _ C E1 R1 E3 _ W GC _ DC NI).
    + intros J P. unfold jstep, j_start, in_buf. rewrite P. rewrite C, Z.eqb_refl. cbn [j_phase]. eauto.
    + apply Forall_app. split; assumption.
    + congruence.
Qed.

Lemma map_flagged : forall sp sd sq st2 n dim typ wt doms handed, map_written z sp sd sq st2 n dim typ wt doms handed ->
  exists items, Forall2 (user_numbered z sp) handed items /\ (forall recs, sorted_once dim (in_domains doms items) recs -> answers z st2 (gdxSetHasText n) (ret (b2z ((typ =? dt_set) && existsb tells recs)))).
Proof.
  intros sp sd sq st2 n dim typ wt doms handed (name & prod & compr & pre & id & text & uinfo & dcs & body & r & rdcs & rbody & rd & post & st & s1 &
    IP & E1 & R1 & C & L & WI & SY & SV & DG & ->).
  apply symbols_iff in SY. assert (NE : n = sym_count (g_dic sp) + 1) by lia. subst n.
  pose proof IP as (rp & rq & _ & R0 & _ & RO).
  destruct (parts_jinv _ _ _ _ _ _ _ _ _ _ _ _ IP) as (rpre & J0 & WP & JI & FS & FP & _ & D2 & _).
  destruct (given_within _ _ _ _ _ _ _ _ _ _ _ _ DG) as (GW & _ & GL & _ & GA).
  destruct (seg_split _ _ _ _ _ _ _ _ R0 ltac:(rewrite !app_length; congruence)) as (s1' & sd' & E1' & R1' & E3).
  rewrite E1 in E1'. injection E1' as <-. rewrite R1 in R1'. injection R1' as <-.
  destruct (writes_labels _ _ _ _ _ _ _ WP) as (LI & UI & UN).
  inversion FS as [|? ? FS1 FS']; subst. apply Forall_app in FS'. destruct FS' as [FB FD].
  assert (ST : starting (gdxDataWriteMapStart id text dim typ uinfo) id text dim typ uinfo) by (right; right; left; reflexivity).
  destruct (map_begin _ _ _ _ _ _ _ _ _ _ _ _ JI FS1 E1 C) as (t & SS & B1 & B2 & B3 & B4 & B5).
  apply Forall_and_inv in WI. destruct WI as [WI1 WI2].
  assert (CU : w_cur (g_wrk s1) = CSym (sym_count (g_dic sp) + 1)) by (destruct SS as [(G0 & W0 & GC0) _]; eapply buf_cur; eassumption).
  assert (WW : forall s2, run z body s2 = Done (rbody, sd) -> run z dcs s1 = Done (rdcs, s2) -> w_wrb (g_wrk sd) = w_wrb (g_wrk s2)).
  { intros s2 Q1 Q2. apply Forall_app in FB. destruct FB as [FB1 FB2]. destruct (map_body z _ _ _ _ _ _ _ _ SS FB1 GW Q2) as (i0 & S2 & _).
    destruct (map_body z _ _ _ _ _ _ _ _ S2 FB2 WI1 Q1) as (_ & _ & _ & X & _). apply X. exact WI2. }
  destruct (map_body z _ _ _ _ _ _ _ _ SS FB ltac:(apply Forall_app; split; assumption) R1) as (items & [(G & W & GC) _] & (X1 & X2 & X3) & _ & _ & N). cbn [app] in GC.
  rewrite GA in N.
  assert (CUD : w_cur (g_wrk sd) <> CNull) by (rewrite (buf_cur _ _ _ _ _ _ _ W GC); discriminate).
  destruct (given_after _ _ _ _ _ _ _ _ _ _ _ _ _ _ _ _ _ _ _ _ _ _ _ _ _ _ IP ST C E1 R1 L CU B1 B3 CUD DG WW ltac:(cbn [run]; rewrite E3; reflexivity)) as [DC NI].
  exists items. split.
  - rewrite B1, B2, B5 in N. apply Forall2_map_l. eapply Forall2_weaken; [|exact N]. intros x y [Y1 Y2]. split; [|exact Y2]. cbn [fst]. eapply Forall2_weaken; [|exact Y1].
    intros u k [F B]. apply stands_spec; assumption.
  - refine (buf_flagged _ _ _ _ _ _ _ _ _ _ _ _ _ _ _ _ _ _ _ _ _ _ _ _ _ IP ST _ C E1 R1 E3 _ W GC _ DC NI).
    + intros J P. unfold jstep, j_start, in_buf. rewrite P. rewrite C, Z.eqb_refl. cbn [j_phase]. eauto.
    + apply Forall_app. split; assumption.
    + congruence.
Qed.
End Z2.

Lemma last_flagged : forall z st2 n dim typ wt recs, wrote_last z st2 n dim typ wt recs -> answers z st2 (gdxSetHasText n) (ret (b2z ((typ =? dt_set) && existsb tells recs))).
Proof.
  intros z st2 n dim typ wt recs [W|[(sd & sq & doms & handed & items & W & F & S)|(sp & sd & sq & doms & handed & items & W & F & S)]].
  - apply raw_flagged in W. exact W.
  - destruct (str_flagged _ _ _ _ _ _ _ _ _ _ W) as (items' & F' & H). rewrite (Forall2_fun _ _ _ _ (numbered_by_fun z st2) F F') in S. exact (H _ S).
  - destruct (map_flagged _ _ _ _ _ _ _ _ _ _ _ W) as (items' & F' & H). rewrite (Forall2_fun _ _ _ _ (user_numbered_fun z sp) F F') in S. exact (H _ S).
Qed.

(** ** Appending *)

From Verif Require Import PropAppend.

(** What is appended does not change the answer about a symbol that was there. *)
Theorem C26_has_text : forall z rd1 cs rs rd2 n k, extended z rd1 cs rs rd2 -> symbols z rd1 k -> 1 <= n <= k -> same_answer z rd1 rd2 (gdxSetHasText n).
Proof.
  intros z rd1 cs rs rd2 n k X K R r. apply symbols_iff in K. subst k. destruct (extended_session _ _ _ _ _ X) as (sta & st & A).
  destruct (as_end _ _ _ _ _ _ _ A) as (nm & prod & compr & RO & _). destruct (as_jinv _ _ _ _ _ _ _ A) as (h & J & JI & PI).
  assert (FL : exists b typ, flag (g_dic rd1) n = Some (b, typ)).
  { unfold flag, get_sym. destruct (znth_exists (d_names (g_dic rd1)) (n - 1)) as (e & ->); [unfold sym_count in R; lia|]. cbn [option_map]. eauto. }
  destruct FL as (b & typ & FL). pose proof (flag_answer z _ _ _ _ FL) as A1.
  rewrite <- (as_dic _ _ _ _ _ _ _ A) in FL.
  pose proof (quiet_run z _ _ _ _ _ _ _ _ _ JI (as_calls _ _ _ _ _ _ _ A) (as_run _ _ _ _ _ _ _ A) ltac:(unfold j_number; rewrite PI; discriminate) FL) as F2.
  pose proof (proj1 (C20_metadata_is_found_again _ _ _ _ _ _ _ _ (gdxSetHasText n) RO Logic.I _) (flag_answer z _ _ _ _ F2)) as A2.
  destruct A1 as (x & A1), A2 as (y & A2). split; intros (w & H).
  - rewrite A1 in H. injection H as <- <-. exists y. exact A2.
  - rewrite A2 in H. injection H as <- <-. exists x. exact A1.
Qed.

(** ** C64: the answer is whether a record of the set refers to a text *)

Theorem C64_has_text : forall z st2 n dim typ wt recs, wrote z st2 n dim typ wt recs ->
  (has_a_text typ recs -> answers z st2 (gdxSetHasText n) (ret 1)) /\
  (~ has_a_text typ recs -> answers z st2 (gdxSetHasText n) (ret 0)).
Proof.
  intros z st2 n dim typ wt recs (rd1 & W & L).
  assert (H : answers z st2 (gdxSetHasText n) (ret (b2z ((typ =? dt_set) && existsb tells recs)))).
  { pose proof (last_flagged _ _ _ _ _ _ _ W) as H. pose proof W as W0. induction L as [|rd1 rd2 cs rs rd3 L IH X]; [exact H|]. specialize (IH W H W0).
    pose proof (wrote_holds z rd2 n dim typ wt recs (ex_intro _ rd1 (conj W0 L))) as (HO & _). 
    destruct HO as (_ & _ & _ & _ & F & tab & k & nm & sy & RF & ZN & _).
    apply (C26_has_text _ _ _ _ _ n (sym_count (g_dic rd2)) X); [apply symbols_iff; reflexivity| |exact IH].
    destruct (tab_sym _ _ _ _ _ _ _ _ RF ZN) as (_ & _ & _ & _ & RG). exact RG. }
  assert (E : (typ =? dt_set) && existsb tells recs = true <-> has_a_text typ recs).
  { rewrite Bool.andb_true_iff, tells_spec, Z.eqb_eq. reflexivity. }
  destruct ((typ =? dt_set) && existsb tells recs); split; intros T; try exact H; exfalso.
  - apply T, E. reflexivity.
  - apply E in T. discriminate T.
Qed.

(** ** A concrete case *)

(** The set [i] is written with labels, out of order and with one element given twice, and
    one of its elements has a text.  The set [j] is written with raw indices and has none.
    Then a parameter with values other than 0. *)
Definition ht_pre : list call := [gdxAddSetText (s2z "a text")].
Definition ht_body1 : list call := [gdxDataWriteStr [s2z "b"] [0]; gdxDataWriteStr [s2z "a"] [dbl_1]; gdxDataWriteStr [s2z "b"] [0]].
Definition ht_seg1 : list call := gdxDataWriteStrStart (s2z "i") (s2z "a set") 1 dt_set 0 :: ([] ++ ht_body1) ++ [gdxDataWriteDone].
Definition ht_body2 : list call := [gdxDataWriteRaw [1] [0]; gdxDataWriteRaw [2] [minus_zero]].
Definition ht_seg2 : list call := gdxDataWriteRawStart (s2z "j") (s2z "") 1 dt_set 0 :: ht_body2 ++ [gdxDataWriteDone].
Definition ht_body3 : list call := [gdxDataWriteRaw [1] [dbl_2_5]].
Definition ht_seg3 : list call := gdxDataWriteRawStart (s2z "p") (s2z "") 1 dt_par 0 :: ht_body3 ++ [gdxDataWriteDone].
Definition ht_0 : gst := state_of (exec rle_zlib (gdxOpenWriteEx (s2z "h.gdx") (s2z "test") 0) (new_object [])).
Definition ht_s0 : gst := state_of (run rle_zlib ht_pre ht_0).
Definition ht_i : gst := state_of (exec rle_zlib (gdxDataWriteStrStart (s2z "i") (s2z "a set") 1 dt_set 0) ht_s0).
Definition ht_d : gst := state_of (run rle_zlib ht_body1 ht_i).
Definition ht_s1 : gst := state_of (exec rle_zlib gdxDataWriteDone ht_d).
Definition ht_s2 : gst := state_of (run rle_zlib ht_seg2 ht_s1).
Definition ht_s3 : gst := state_of (run rle_zlib ht_seg3 ht_s2).
Definition ht_closed : gst := state_of (exec rle_zlib gdxClose ht_s3).
Definition ht_read : gst := state_of (exec rle_zlib (gdxOpenReadEx (s2z "h.gdx") 0) ht_closed).
Definition ht_file : list Z := match disk_get (e_disk (g_env ht_closed)) (s2z "h.gdx") with Some F => F | None => [] end.
Lemma ht_open : forall cs, calls_okb cs = true -> forall rs st, run rle_zlib cs ht_0 = Done (rs, st) -> writes rle_zlib (s2z "h.gdx") (s2z "test") 0 cs rs st.
Proof.
  intros cs OK rs st R. apply writes_made. exists (new_object []), ht_0, (ret_i 1 [0]). split; [vm_compute; reflexivity|]. split; [reflexivity|]. split; [apply str_okb_ok; vm_compute; reflexivity|].
  split; [apply calls_okb_ok; exact OK|exact R].
Qed.
Definition ht_calls : list call := ht_pre ++ ht_seg1 ++ ht_seg2 ++ ht_seg3.
Lemma ht_reopened : reopened rle_zlib (s2z "h.gdx") (s2z "test") 0 ht_calls (answer_of (run rle_zlib ht_calls ht_0)) ht_s3 ht_read.
Proof.
  split; [apply ht_open; vm_compute; reflexivity|].
  split; [vm_compute; reflexivity|]. exists (ret 0), ht_closed, ht_file, ht_closed, 0.
  split; [vm_compute; reflexivity|]. split; [vm_compute; reflexivity|]. split; [apply counters_fit_test; vm_compute; reflexivity|].
  split; [vm_compute; reflexivity|]. split; [split; vm_compute; reflexivity|]. split; [vm_compute; reflexivity|]. split; [reflexivity|].
  vm_compute. reflexivity.
Qed.
Lemma ht_cut : forall pre sp seg sq post, pre ++ seg ++ post = ht_calls -> calls_okb pre = true -> run rle_zlib pre ht_0 = Done (answer_of (run rle_zlib pre ht_0), sp) ->
  run rle_zlib seg sp = Done (answer_of (run rle_zlib seg sp), sq) -> run rle_zlib post sq = Done (answer_of (run rle_zlib post sq), ht_s3) ->
  in_parts rle_zlib (s2z "h.gdx") (s2z "test") 0 pre sp seg (answer_of (run rle_zlib seg sp)) sq post ht_s3 ht_read.
Proof.
  intros pre sp seg sq post E OK R1 R2 R3. exists (answer_of (run rle_zlib pre ht_0)), (answer_of (run rle_zlib post sq)).
  split; [apply ht_open; assumption|]. split; [exact R2|]. split; [exact R3|]. rewrite E.
  assert (X : run rle_zlib ht_calls ht_0 = Done (answer_of (run rle_zlib pre ht_0) ++ answer_of (run rle_zlib seg sp) ++ answer_of (run rle_zlib post sq), ht_s3)).
  { rewrite <- E. eapply run_app; [exact R1|]. eapply run_app; [exact R2|exact R3]. }
  pose proof ht_reopened as RO. rewrite X in RO. exact RO.
Qed.
Lemma ht_wrote2 : wrote rle_zlib ht_read 2 1 dt_set standard_values [([1], [0]); ([2], [minus_zero])].
Proof.
  apply wrote_now. left.
  exists (s2z "h.gdx"), (s2z "test"), 0, (ht_pre ++ ht_seg1), ht_s1, (gdxDataWriteRawStart (s2z "j") (s2z "") 1 dt_set 0), (s2z "j"), (s2z ""), 0, [(0, INT_MAX)], ht_body2, (ret 1),
    [ret 1; ret 1], (ret 1), ht_s2, ht_seg3, ht_s3.
  split; [exact (ht_cut (ht_pre ++ ht_seg1) ht_s1 ht_seg2 ht_s2 ht_seg3 eq_refl ltac:(vm_compute; reflexivity) ltac:(vm_compute; reflexivity) ltac:(vm_compute; reflexivity) ltac:(vm_compute; reflexivity))|].
  split; [exact (RS_plain (s2z "j") (s2z "") 1 dt_set 0)|]. split; [reflexivity|]. split; [reflexivity|].
  split; [repeat constructor|]. split; [exists 2; ans|]. split; [ans|]. split; [reflexivity|]. split; [reflexivity|]. repeat constructor.
Qed.
Lemma ht_wrote3 : wrote rle_zlib ht_read 3 1 dt_par standard_values [([1], [dbl_2_5])].
Proof.
  apply wrote_now. left.
  exists (s2z "h.gdx"), (s2z "test"), 0, (ht_pre ++ ht_seg1 ++ ht_seg2), ht_s2, (gdxDataWriteRawStart (s2z "p") (s2z "") 1 dt_par 0), (s2z "p"), (s2z ""), 0, [(0, INT_MAX)], ht_body3, (ret 1),
    [ret 1], (ret 1), ht_s3, [], ht_s3.
  split; [exact (ht_cut (ht_pre ++ ht_seg1 ++ ht_seg2) ht_s2 ht_seg3 ht_s3 [] eq_refl ltac:(vm_compute; reflexivity) ltac:(vm_compute; reflexivity) ltac:(vm_compute; reflexivity) ltac:(vm_compute; reflexivity))|].
  split; [exact (RS_plain (s2z "p") (s2z "") 1 dt_par 0)|]. split; [reflexivity|]. split; [reflexivity|].
  split; [repeat constructor|]. split; [exists 2; ans|]. split; [ans|]. split; [reflexivity|]. split; [reflexivity|]. repeat constructor.
Qed.
Lemma ht_written : str_written rle_zlib ht_d ht_s1 ht_read 1 1 dt_set standard_values [None] [([s2z "b"], [0]); ([s2z "a"], [dbl_1]); ([s2z "b"], [0])].
Proof.
  exists (s2z "h.gdx"), (s2z "test"), 0, ht_pre, ht_s0, (s2z "i"), (s2z "a set"), 0, [], ht_body1, (ret 1), [], [ret 1; ret 1; ret 1], (ret 1), (ht_seg2 ++ ht_seg3), ht_s3, ht_i.
  split; [exact (ht_cut ht_pre ht_s0 ht_seg1 ht_s1 (ht_seg2 ++ ht_seg3) eq_refl ltac:(vm_compute; reflexivity) ltac:(vm_compute; reflexivity) ltac:(vm_compute; reflexivity) ltac:(vm_compute; reflexivity))|].
  split; [vm_compute; reflexivity|]. split; [vm_compute; reflexivity|]. split; [reflexivity|]. split; [reflexivity|]. split; [repeat constructor|].
  split; [repeat constructor|]. split; [exists 0; ans|]. split; [ans|]. split; [left; auto|reflexivity].
Qed.

Lemma ht_sorted : sorted_once 1 (in_domains [None] [([1], [0]); ([2], [dbl_1]); ([1], [0])]) [([1], [0]); ([2], [dbl_1])].
Proof.
  split; [discriminate|]. intros _. split.
  - cbn [List.map fst]. constructor; [constructor; [constructor|constructor]|]. constructor; [|constructor]. left. lia.
  - intros k v. change (in_domains [None] [([1], [0]); ([2], [dbl_1]); ([1], [0])]) with [([1], [0]); ([2], [dbl_1]); ([1], [0])]. split.
    + intros [E|[E|[]]]; injection E as <- <-.
      * exists [], [([2], [dbl_1]); ([1], [0])]. split; [reflexivity|intros []].
      * exists [([1], [0])], [([1], [0])]. split; [reflexivity|]. intros [X|[]]. discriminate X.
    + intros (a & b & E & N). destruct a as [|x [|y [|w a]]]; cbn [app] in E.
      * injection E as <- <- _. left. reflexivity.
      * injection E as <- <- <- _. right. left. reflexivity.
      * injection E as <- <- <- <- _. exfalso. apply N. left. reflexivity.
      * injection E as _ _ _ E. destruct a; discriminate E.
Qed.
Lemma ht_wrote1 : wrote rle_zlib ht_read 1 1 dt_set standard_values [([1], [0]); ([2], [dbl_1])].
Proof.
  apply wrote_now. right. left. exists ht_d, ht_s1, [None], [([s2z "b"], [0]); ([s2z "a"], [dbl_1]); ([s2z "b"], [0])], [([1], [0]); ([2], [dbl_1]); ([1], [0])].
  split; [exact ht_written|]. split; [|exact ht_sorted].
  assert (LA : label_found rle_zlib ht_read (s2z "a") 2) by (exists (-1); ans). assert (LB : label_found rle_zlib ht_read (s2z "b") 1) by (exists (-1); ans).
  repeat (constructor; try (split; [constructor; [assumption|constructor]|reflexivity])).
Qed.
Example C64_case_texts : answers rle_zlib ht_read (gdxSetHasText 1) (ret 1).
Proof.
  refine (proj1 (C64_has_text _ _ _ _ _ _ _ ht_wrote1) _). split; [reflexivity|]. exists ([2], [dbl_1]). split; [right; left; reflexivity|]. exists dbl_1, [].
  split; [reflexivity|]. split; discriminate.
Qed.
Example C64_case_none : answers rle_zlib ht_read (gdxSetHasText 2) (ret 0).
Proof.
  refine (proj2 (C64_has_text _ _ _ _ _ _ _ ht_wrote2) _). intros (_ & kv & [<-|[<-|[]]] & x & vs & E & N1 & N2); injection E as <- _; [exact (N1 eq_refl)|exact (N2 eq_refl)].
Qed.
Example C64_case_other : answers rle_zlib ht_read (gdxSetHasText 3) (ret 0).
Proof. refine (proj2 (C64_has_text _ _ _ _ _ _ _ ht_wrote3) _). intros (X & _). discriminate X. Qed.
Example C26_case_has_text : same_answer rle_zlib rc_read ap_read (gdxSetHasText 1).
Proof. apply (C26_has_text _ _ _ _ _ 1 3 ap_extended); [exists 3; ans|lia]. Qed.

Print Assumptions C26_has_text.
Print Assumptions C64_has_text.
