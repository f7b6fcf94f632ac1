(** * Properties of filters: C18 *)

From Coq Require Import String Permutation Sorted.
From Verif Require Import Base Prim Values Records LinkedData StrHash IntMap Strings AStream BufStream State
  FileImage ApiCore ApiFile ApiWrite ApiRead Api FileFacts BlockFacts StreamFacts OpenFacts DicInv WriteInv WriteSteps Journal WriteCalls WriteTrace
  FileFlow Footprint SessInv Sessions Vocab PropErr Reopen PropNames PropMeta Segment PropTexts PropDomain LabelFacts Buffered Contents Domains Wrote
  PropRead PropStrings PropWidths Readers Cases PropLabels.
Open Scope Z_scope.
Open Scope list_scope.

(** ** Specification *)

(** The calls about filters. *)
Definition filter_call (c : call) : bool :=
  match c with gdxFilterRegisterStart _ | gdxFilterRegister _ | gdxFilterRegisterDone => true | _ => false end.

(** The program defines the filter [f]: it starts it, registers the numbers [regs] with the
    answers [rs], and ends it. *)
Definition defines (z : zlib) (f : Z) (regs : list Z) (rs : list resp) (a b : gst) : Prop :=
  exists r0 a1 a2 r1, exec z (gdxFilterRegisterStart f) a = Done (r0, a1) /\ r_code r0 = 1 /\
    run z (List.map gdxFilterRegister regs) a1 = Done (rs, a2) /\ exec z gdxFilterRegisterDone a2 = Done (r1, b).

(** The numbers whose registration was answered with 1. *)
Definition accepted (regs : list Z) (rs : list resp) : list Z :=
  List.map fst (filter (fun p => r_code (snd p) =? 1) (combine regs rs)).

(** Afterwards: any calls, but filter [f] is not defined again. *)
Inductive later (z : zlib) (f : Z) : gst -> gst -> Prop :=
| later_now : forall a, later z f a a
| later_call : forall a c r b e, session_call c = true -> call_ok c -> filter_call c = false -> exec z c a = Done (r, b) -> later z f b e -> later z f a e
| later_filter : forall a g regs rs b e, g <> f -> defines z g regs rs a b -> later z f b e -> later z f a e.

(** The filter [f] of the object [st] was last defined with the user numbers [vs]; the object
    reads any file. *)
Definition filter_is (z : zlib) (f : Z) (vs : list Z) (st : gst) : Prop :=
  exists cs a regs rs b, in_reading z cs a /\ defines z f regs rs a b /\ vs = accepted regs rs /\ later z f b st.

(** ** Lists of filters *)

Lemma find_put : forall g l n, find_filter (put_filter g l) n = if fl_nr g =? n then option_map (fun _ => g) (find_filter l n) else find_filter l n.
Proof.
  intros g l n. unfold put_filter. destruct (Z.eqb_spec (fl_nr g) n) as [Q|Q]; (induction l as [|h l IH]; cbn; [reflexivity|]); destruct (Z.eqb_spec (fl_nr h) (fl_nr g)) as [E|E].
  - destruct (Z.eqb_spec (fl_nr g) n); [|congruence]. destruct (Z.eqb_spec (fl_nr h) n); [reflexivity|congruence].
  - destruct (Z.eqb_spec (fl_nr h) n); [congruence|exact IH].
  - destruct (Z.eqb_spec (fl_nr g) n); [congruence|]. destruct (Z.eqb_spec (fl_nr h) n); [congruence|exact IH].
  - destruct (Z.eqb_spec (fl_nr h) n); [reflexivity|exact IH].
Qed.
Lemma find_drop_other : forall n m l, n <> m -> find_filter (drop_filter n l) m = find_filter l m.
Proof.
  intros n m l N. induction l as [|h l IH]; cbn; [reflexivity|]. destruct (Z.eqb_spec (fl_nr h) n) as [E|E].
  - destruct (Z.eqb_spec (fl_nr h) m); [congruence|reflexivity].
  - cbn. destruct (fl_nr h =? m); [reflexivity|exact IH].
Qed.
Lemma find_none : forall l n, find_filter l n = None <-> ~ In n (List.map fl_nr l).
Proof.
  induction l as [|h l IH]; intros n; cbn; [tauto|]. destruct (Z.eqb_spec (fl_nr h) n) as [E|E]; [split; [discriminate|tauto]|]. rewrite IH. tauto.
Qed.
Lemma find_app : forall a b n, find_filter (a ++ b) n = match find_filter a n with Some f => Some f | None => find_filter b n end.
Proof. induction a as [|h a IH]; intros b n; cbn; [reflexivity|]. destruct (fl_nr h =? n); [reflexivity|apply IH]. Qed.
Lemma find_nr : forall l n f, find_filter l n = Some f -> fl_nr f = n.
Proof. induction l as [|h l IH]; intros n f; cbn; [discriminate|]. destruct (Z.eqb_spec (fl_nr h) n) as [E|E]; [intros H; congruence|apply IH]. Qed.

(** ** Objects that read *)

Definition filt_obj (st : gst) : Prop := user_inv true (g_dic st) /\ filts_inv (g_dic st) /\ d_nn (g_dic st) = true /\ d_un (g_dic st) = true.

Lemma filt_obj_during : forall z cs a b, during z cs a b -> filt_obj a -> filt_obj b.
Proof.
  intros z cs a b D F. eapply (during_dic z (fun d => user_inv true d /\ filts_inv d /\ d_nn d = true /\ d_un d = true)) with (cs := cs) (a := a); [|exact D|exact F].
  intros c d d' I A (I1 & I2 & I3 & I4). destruct (flags_keep _ _ _ A) as (E1 & E2 & _). split; [eapply user_step; [left; reflexivity|exact A|exact I1]|].
  split; [eapply filts_step; eassumption|]. split; congruence.
Qed.
Lemma reading_filt : forall z cs st, in_reading z cs st -> filt_obj st.
Proof.
  intros z cs st (st0 & O & D). eapply filt_obj_during; [exact D|]. apply opened_read_facts in O. destruct O as (_ & _ & _ & _ & _ & NN & UN & US & _ & FI & _ & FU).
  split; [|split; [|auto]].
  - constructor; rewrite ?US; try discriminate.
    + apply im_new_inv.
    + intros n. left. apply im_get_new.
    + intros i e H. left. rewrite Forall_forall in FU. apply FU. eapply znth_In. exact H.
  - unfold filts_inv. rewrite FI. split; constructor.
Qed.

(** ** Defining a filter *)

Lemma start_filter : forall z f a r a1, filt_obj a -> exec z (gdxFilterRegisterStart f) a = Done (r, a1) -> r_code r = 1 ->
  1 <= f /\ a1 = set_g_mode fr_filter (upd_wrk (set_w_curf (Some f)) (upd_dic (fun d => set_d_filts (drop_filter f (d_filts d) ++ [mkFilt f (im_high (d_usr (g_dic a))) [] false]) d) a)) /\
  find_filter (d_filts (g_dic a1)) f = Some (mkFilt f (im_high (d_usr (g_dic a))) [] false) /\
  (forall g, g <> f -> find_filter (d_filts (g_dic a1)) g = find_filter (d_filts (g_dic a)) g).
Proof.
  intros z f a r a1 (U & (ND & _) & _) H RC. cbn [exec] in H. unfold filter_register_start, checked in H.
  destruct (mode_in _ _); [|injection H as <- _; discriminate]. destruct (Z.ltb_spec f 1); [injection H as <- _; discriminate|].
  destruct (negb _); [discriminate|]. injection H as <- <-. split; [assumption|]. split; [reflexivity|]. cbn [g_dic set_g_mode upd_wrk upd_dic upd set_g_wrk set_g_dic d_filts set_d_filts]. split.
  - rewrite find_app. destruct (drop_filter_nodup f _ ND) as [_ X]. apply find_none in X. rewrite X. cbn. rewrite Z.eqb_refl. reflexivity.
  - intros g N. rewrite find_app, find_drop_other by congruence. destruct (find_filter (d_filts (g_dic a)) g); [reflexivity|]. cbn. destruct (Z.eqb_spec f g); [congruence|reflexivity].
Qed.

(** What the object looks like while filter [f] is being defined with the numbers [vs]. *)
Record defining (f h : Z) (vs : list Z) (a0 st : gst) : Prop := mkDF {
  df_mode : g_mode st = fr_filter;
  df_cur : w_curf (g_wrk st) = Some f;
  df_usr : d_usr (g_dic st) = d_usr (g_dic a0);
  df_uels : d_uels (g_dic st) = d_uels (g_dic a0);
  df_un : d_un (g_dic st) = d_un (g_dic a0);
  df_find : exists l s, find_filter (d_filts (g_dic st)) f = Some (mkFilt f h l s) /\ forall v, In v l <-> In v vs;
  df_other : forall g, g <> f -> find_filter (d_filts (g_dic st)) g = find_filter (d_filts (g_dic a0)) g
}.

(** One registration: the answer, and what changes. *)
Lemma register_one : forall z f h vs a0 st v r st', filt_obj a0 -> h = im_high (d_usr (g_dic a0)) -> defining f h vs a0 st -> exec z (gdxFilterRegister v) st = Done (r, st') ->
  ((1 <= v <= h /\ 1 <= im_get (d_usr (g_dic a0)) v) /\ r = ret 1 /\ defining f h (v :: vs) a0 st') \/
  (~ (1 <= v <= h /\ 1 <= im_get (d_usr (g_dic a0)) v) /\ defining f h vs a0 st' /\ refused_call z st st' r /\ d_filts (g_dic st') = d_filts (g_dic st)).
Proof.
  intros z f h vs a0 st v r st' FO -> [D1 D2 D3 D4 D5 (l & s & D6 & D7) D8] H. cbn [exec] in H. unfold filter_register, checked in H. rewrite D1 in H.
  change (mode_in fr_filter [fr_filter]) with true in H. cbn iota in H. unfold cur_filter in H. rewrite D2, D6 in H. cbn [obind fl_max] in H.
  assert (REF : forall e, e <> 0 -> Done (ret 0, set_error e st) = Done (r, st') -> defining f (im_high (d_usr (g_dic a0))) vs a0 st' /\ refused_call z st st' r /\ d_filts (g_dic st') = d_filts (g_dic st)).
  { intros e NE Q. injection Q as <- <-. destruct (set_error_tables e st) as (T1 & T2 & _ & _ & T3). split; [|split; [apply refused_error; exact NE|rewrite T1; reflexivity]].
    constructor; rewrite ?T1, ?T2, ?T3; try assumption. exists l, s. auto. }
  destruct (Z.leb_spec 1 v) as [A|A]; [|right; split; [lia|]; eapply (REF ERR_BAD_FILTER_INDX); [discriminate|exact H]].
  destruct (Z.leb_spec v (im_high (d_usr (g_dic a0)))) as [B|B]; [|right; split; [lia|]; eapply (REF ERR_BAD_FILTER_INDX); [discriminate|exact H]]. cbn [andb negb] in H.
  rewrite D3 in H. destruct (Z.leb_spec 1 (im_get (d_usr (g_dic a0)) v)) as [C|C]; [|right; split; [lia|]; eapply (REF ERR_FILTER_UNMAPPED); [discriminate|exact H]].
  left. split; [lia|]. unfold bits_add in H. destruct (Z.ltb_spec v 0); [lia|]. destruct (v >? INT_MAX - 8); [discriminate|]. cbn [obind fl_map] in H. injection H as <- <-. split; [reflexivity|].
  constructor; cbn [g_mode g_wrk g_dic upd_dic upd set_g_dic d_usr d_uels d_un d_filts set_d_filts]; try assumption.
  - exists (v :: l), s. rewrite find_put. cbn [fl_nr set_fl_map]. rewrite Z.eqb_refl, D6. split; [reflexivity|]. intros x. cbn. rewrite D7. tauto.
  - intros g N. rewrite find_put. cbn [fl_nr set_fl_map]. destruct (Z.eqb_spec f g); [congruence|]. apply D8. exact N.
Qed.

Lemma register_all : forall z f h a0 regs vs st rs st', filt_obj a0 -> h = im_high (d_usr (g_dic a0)) -> defining f h vs a0 st ->
  run z (List.map gdxFilterRegister regs) st = Done (rs, st') ->
  defining f h (rev (accepted regs rs) ++ vs) a0 st' /\
  Forall2 (fun v r => r_code r = 1 <-> 1 <= v <= h /\ 1 <= im_get (d_usr (g_dic a0)) v) regs rs.
Proof.
  intros z f h a0. induction regs as [|v regs IH]; intros vs st rs st' FO EH D R; cbn [List.map run] in R.
  - injection R as <- <-. split; [exact D|constructor].
  - destruct (exec z (gdxFilterRegister v) st) as [[r s1]|] eqn:E; [|discriminate]. cbn [obind] in R. destruct (run z _ s1) as [[rs1 s2]|] eqn:R1; [|discriminate]. injection R as <- <-.
    destruct (register_one _ _ _ _ _ _ _ _ _ FO EH D E) as [(C & -> & D')|(C & D' & RC & _)].
    + destruct (IH _ _ _ _ FO EH D' R1) as [A B]. split; [|constructor; [split; [intros _; exact C|reflexivity]|exact B]].
      change (accepted (v :: regs) (ret 1 :: rs1)) with (v :: accepted regs rs1). cbn [rev]. rewrite <- app_assoc. exact A.
    + destruct (IH _ _ _ _ FO EH D' R1) as [A B]. destruct RC as (-> & _). split; [|constructor; [split; [intros Q; discriminate Q|intros Q; contradiction]|exact B]].
      change (accepted (v :: regs) (ret 0 :: rs1)) with (accepted regs rs1). exact A.
Qed.

Definition holds_filter (f : Z) (vs : list Z) (st : gst) : Prop :=
  exists h l s, find_filter (d_filts (g_dic st)) f = Some (mkFilt f h l s) /\ (forall v, In v l <-> In v vs) /\ Forall (fun v => 0 <= v <= h) vs.

Lemma defines_holds : forall z f regs rs a b, filt_obj a -> defines z f regs rs a b ->
  holds_filter f (accepted regs rs) b /\ (forall g, g <> f -> forall vs, holds_filter g vs a -> holds_filter g vs b) /\
  Forall2 (fun v r => r_code r = 1 <-> 1 <= v <= im_high (d_usr (g_dic a)) /\ 1 <= im_get (d_usr (g_dic a)) v) regs rs /\
  d_usr (g_dic b) = d_usr (g_dic a) /\ d_uels (g_dic b) = d_uels (g_dic a).
Proof.
  intros z f regs rs a b FO (r0 & a1 & a2 & r1 & ST & RC & RU & DN).
  destruct (start_filter _ _ _ _ _ FO ST RC) as (FP & EQ & FF & FO1).
  assert (D0 : defining f (im_high (d_usr (g_dic a))) [] a a1).
  { constructor; try (subst a1; reflexivity); [|exact FO1]. exists [], false. split; [exact FF|tauto]. }
  destruct (register_all _ _ _ _ _ _ _ _ _ FO eq_refl D0 RU) as [D1 F2]. rewrite app_nil_r in D1. destruct D1 as [D1 D2 D3 D4 D5 (l & s & D6 & D7) D8].
  cbn [exec] in DN. unfold filter_register_done, checked in DN. rewrite D1 in DN. change (mode_in fr_filter [fr_filter]) with true in DN. cbn iota in DN. unfold cur_filter in DN. rewrite D2, D6 in DN. cbn [obind] in DN.
  destruct (map_status_some (g_dic a2)) as [_ MF]. assert (MU : d_usr (snd (map_status (g_dic a2))) = d_usr (g_dic a2) /\ d_uels (snd (map_status (g_dic a2))) = d_uels (g_dic a2)).
  { unfold map_status. destruct (d_status (g_dic a2)); split; reflexivity. }
  destruct (map_status (g_dic a2)) as [ms d2] eqn:MS. cbn [snd] in *. injection DN as <- <-.
  split; [|split; [|split; [exact F2|cbn; split; [destruct MU; congruence|destruct MU; congruence]]]].
  - eexists _, l, _. cbn [g_dic set_g_mode upd_wrk upd_dic upd set_g_wrk set_g_dic d_filts set_d_filts]. rewrite find_put. cbn [fl_nr set_fl_sorted]. rewrite Z.eqb_refl, MF, D6. cbn [option_map].
    split; [reflexivity|]. split; [intros v; rewrite D7, <- in_rev; reflexivity|].
    clear - F2. unfold accepted. apply Forall_forall. intros v I. apply in_map_iff in I. destruct I as ((x & r) & <- & I). apply filter_In in I. destruct I as [I RC]. cbn [fst snd] in *. apply Z.eqb_eq in RC.
    revert I. induction F2 as [|v r' regs rs P F2 IH]; cbn; [tauto|]. intros [Q|Q]; [injection Q as -> ->; apply P in RC; lia|exact (IH Q)].
  - intros g N vs (h & l' & s' & HF & H1 & H2). exists h, l', s'. split; [|auto]. cbn [g_dic set_g_mode upd_wrk upd_dic upd set_g_wrk set_g_dic d_filts set_d_filts]. rewrite find_put. cbn [fl_nr set_fl_sorted].
    destruct (Z.eqb_spec f g); [congruence|]. rewrite MF, D8 by exact N. exact HF.
Qed.

Lemma defines_during : forall z f regs rs a b, defines z f regs rs a b -> exists cs, during z cs a b.
Proof.
  intros z f regs rs a b (r0 & a1 & a2 & r1 & ST & RC & RU & DN). exists ([gdxFilterRegisterStart f] ++ (List.map gdxFilterRegister regs ++ [gdxFilterRegisterDone])).
  split; [|split].
  - cbn. rewrite forallb_app. cbn. rewrite Bool.andb_true_r. apply forallb_forall. intros c I. apply in_map_iff in I. destruct I as (v & <- & _). reflexivity.
  - apply Forall_forall. intros c I. cbn in I. destruct I as [<-|I]; [exact Logic.I|]. apply in_app_iff in I. destruct I as [I|[<-|[]]]; [|exact Logic.I]. apply in_map_iff in I. destruct I as (v & <- & _). exact Logic.I.
  - exists ([r0] ++ (rs ++ [r1])). eapply run_app; [cbn [run]; rewrite ST; reflexivity|]. eapply run_app; [exact RU|]. cbn [run]. rewrite DN. reflexivity.
Qed.

Lemma other_call_filts : forall z c a r b, session_call c = true -> call_ok c -> filter_call c = false -> exec z c a = Done (r, b) -> d_filts (g_dic b) = d_filts (g_dic a).
Proof.
  intros z c a r b S0 OK FC E. eapply (call_dic z (fun d => d_filts d = d_filts (g_dic a)) c); try eassumption; [|reflexivity].
  intros d d' A Q. rewrite <- Q. destruct (filts_cases _ _ _ A) as [[X _]|[(n & -> & _)|(f & g & _ & _ & _ & _ & [[-> _]|(n & -> & _)] & _)]]; [exact X|discriminate FC|discriminate FC|discriminate FC].
Qed.

Lemma later_holds : forall z f a b, later z f a b -> filt_obj a -> filt_obj b /\ forall vs, holds_filter f vs a -> holds_filter f vs b.
Proof.
  intros z f a b L. induction L as [a|a c r b e SC OK FC E L IH|a g regs rs b e N D L IH]; intros FO; [auto| |].
  - assert (FB : filt_obj b) by (eapply filt_obj_during; [eapply one_call; eassumption|exact FO]). destruct (IH FB) as [A B]. split; [exact A|]. intros vs H. apply B.
    destruct H as (h & l & s & H1 & H2). exists h, l, s. rewrite (other_call_filts _ _ _ _ _ SC OK FC E). auto.
  - destruct (defines_during _ _ _ _ _ _ D) as (cs & DD). pose proof (filt_obj_during _ _ _ _ DD FO) as FB. destruct (IH FB) as [A B]. split; [exact A|]. intros vs H. apply B.
    destruct (defines_holds _ _ _ _ _ _ FO D) as (_ & X & _). apply X; [congruence|exact H].
Qed.

Lemma filter_is_holds : forall z f vs st, filter_is z f vs st -> holds_filter f vs st /\ filt_obj st.
Proof.
  intros z f vs st (cs & a & regs & rs & b & IR & D & -> & L). pose proof (reading_filt _ _ _ IR) as FO. destruct (defines_during _ _ _ _ _ _ D) as (ds & DD).
  destruct (defines_holds _ _ _ _ _ _ FO D) as (H & _). destruct (later_holds _ _ _ _ L (filt_obj_during _ _ _ _ DD FO)) as [A B]. auto.
Qed.

(** ** C18 *)

(** The filter lets exactly the registered numbers pass. *)
Theorem C18_filter_is_what_was_registered : forall z f vs st, filter_is z f vs st -> forall v, admits st f v <-> In v vs.
Proof.
  intros z f vs st FI v. destruct (filter_is_holds _ _ _ _ FI) as [(h & l & s & F & IN & RG) _]. unfold admits. rewrite F. unfold in_filter. cbn [fl_max fl_map]. split.
  - intros (g & E & X). injection E as <-. apply Bool.andb_true_iff in X. destruct X as [_ X]. apply IN. unfold in_list in X. cbn [fl_map] in X. apply existsb_exists in X. destruct X as (y & Y & Q). apply Z.eqb_eq in Q. congruence.
  - intros I. eexists. split; [reflexivity|]. rewrite Forall_forall in RG. destruct (RG v I). cbn [fl_max fl_map]. rewrite !Bool.andb_true_iff. split; [split; lia|]. apply existsb_exists. exists v. split; [apply IN; exact I|apply Z.eqb_refl].
Qed.

(** A number is accepted exactly if it is the user number of a label. *)
Lemma gets_reading : forall z st u, filt_obj st -> (exists s, gets z st u s) <-> 1 <= im_get (d_usr (g_dic st)) u.
Proof.
  intros z st u (U & _ & _ & N). unfold gets, answers. cbn [exec]. unfold get_uel. cbv zeta. rewrite N. cbn [negb]. split.
  - intros (s & x & H). destruct (Z.leb_spec 1 (im_get (d_usr (g_dic st)) u)); [assumption|discriminate].
  - intros H. destruct (Z.leb_spec 1 (im_get (d_usr (g_dic st)) u)); [|lia]. destruct (ui_get _ _ U u) as [Q|(_ & s & Q)]; [lia|]. unfold uel_text. rewrite Q. exists s, st. reflexivity.
Qed.

Theorem C18_accepted_exactly : forall z cs a f regs rs b n h, in_reading z cs a -> defines z f regs rs a b -> totals z a n h ->
  Forall2 (fun v r => r_code r = 1 <-> 1 <= v <= h /\ exists s, gets z a v s) regs rs.
Proof.
  intros z cs a f regs rs b n h IR D T. pose proof (reading_filt _ _ _ IR) as FO. destruct (defines_holds _ _ _ _ _ _ FO D) as (_ & _ & F2 & _).
  assert (EH : h = im_high (d_usr (g_dic a))).
  { destruct T as (x & T). cbn [exec] in T. unfold um_uel_info in T. destruct (f_strm (g_fil a)); [|discriminate]. destruct (d_un (g_dic a)); [|discriminate]. injection T as _ <- _. reflexivity. }
  subst h. eapply Reopen.Forall2_weaken; [|exact F2]. intros v r Q. cbv beta in *. rewrite Q, (gets_reading z a v FO). reflexivity.
Qed.

(** A refused registration only raises an error. *)
Theorem C18_refused_registrations : forall z cs a f r0 a1 regs rs a2 v r a3, in_reading z cs a -> exec z (gdxFilterRegisterStart f) a = Done (r0, a1) -> r_code r0 = 1 ->
  run z (List.map gdxFilterRegister regs) a1 = Done (rs, a2) -> exec z (gdxFilterRegister v) a2 = Done (r, a3) -> r_code r <> 1 ->
  refused_call z a2 a3 r /\ forall g w, admits a3 g w <-> admits a2 g w.
Proof.
  intros z cs a f r0 a1 regs rs a2 v r a3 IR ST RC RU E NR. pose proof (reading_filt _ _ _ IR) as FO. destruct (start_filter _ _ _ _ _ FO ST RC) as (FP & EQ & FF & FO1).
  assert (D0 : defining f (im_high (d_usr (g_dic a))) [] a a1).
  { constructor; try (subst a1; reflexivity); [|exact FO1]. exists [], false. split; [exact FF|tauto]. }
  destruct (register_all _ _ _ _ _ _ _ _ _ FO eq_refl D0 RU) as [D1 F2]. destruct (register_one _ _ _ _ _ _ _ _ _ FO eq_refl D1 E) as [(_ & -> & _)|(_ & _ & RF & DF)]; [elim NR; reflexivity|].
  split; [exact RF|]. intros g w. unfold admits. rewrite DF. reflexivity.
Qed.

(** gdxFilterExists. *)
Theorem C18_defined_filters_exist : forall z f vs st r st' n, filter_is z f vs st -> exec z (gdxFilterExists f) st = Done (r, st') -> errors z st n -> errors z st' n -> r = ret 1.
Proof.
  intros z f vs st r st' n FI E EA EB. destruct (filter_is_holds _ _ _ _ FI) as [(h & l & s & F & _) (_ & _ & NN & _)]. cbn [exec] in E. unfold filter_exists, checked in E.
  destruct (mode_in _ _).
  - rewrite NN, F in E. cbn [negb] in E. injection E as <- _. reflexivity.
  - injection E as <- <-. apply errors_iff in EA, EB. cbn in EB. lia.
Qed.
Theorem C18_only_defined_filters_exist : forall z cs f st r st', in_reading z cs st -> exec z (gdxFilterExists f) st = Done (r, st') -> r_code r = 1 -> In (gdxFilterRegisterStart f) cs.
Proof.
  intros z cs f st r st' (st0 & O & D) E RC. apply opened_read_facts in O. destruct O as (_ & _ & _ & _ & _ & _ & _ & _ & _ & FI & _).
  assert (X : find_filter (d_filts (g_dic st)) f <> None -> In (gdxFilterRegisterStart f) cs).
  { eapply (during_dic z (fun d => find_filter (d_filts d) f <> None -> In (gdxFilterRegisterStart f) cs)) with (cs := cs) (a := st0); [|exact D|rewrite FI; intros Q; elim Q; reflexivity].
    intros c d d' I A Q H. destruct (filts_cases _ _ _ A) as [[X _]|[(n & -> & _ & X & _)|(g & g' & IG & N1 & _ & _ & _ & X)]]; rewrite X in H.
    - exact (Q H).
    - destruct (Z.eq_dec n f) as [->|N]; [exact I|]. apply Q. rewrite find_app, find_drop_other in H by exact N. destruct (find_filter (d_filts d) f); [discriminate|]. cbn in H. destruct (Z.eqb_spec n f); [contradiction|]. elim H; reflexivity.
    - apply Q. intros Z0. apply H. rewrite find_put, Z0. destruct (_ =? _); reflexivity. }
  apply X. intros Q. cbn [exec] in E. unfold filter_exists, checked in E. destruct (mode_in _ _); [|injection E as <- _; discriminate]. destruct (negb _); [discriminate|]. rewrite Q in E. injection E as <- _. discriminate.
Qed.

(** The filter as seen by gdxGetDomainElements: with filter [f] it gives the labels whose user
    number is one of [vs]. *)
Theorem C18_domain_elements : forall z st n pos f vs calls l name dim typ r st', reads_all z st n l -> g_mode st = fr_init -> Forall (fun t => Forall int_ok (snd (fst t))) l ->
  symbol z st n name dim typ -> 1 <= pos <= dim -> filter_is z f vs st -> f <> -1 ->
  exec z (gdxGetDomainElements n pos f calls) st = Done (r, st') ->
  exists ks, StronglySorted Z.lt ks /\ (forall k, In k ks <-> 1 <= k /\ used_at l (Z.to_nat (pos - 1)) k /\ exists u, user_number z st k u /\ In u vs) /\ (calls = false -> r = ret_i 1 [zlen ks]).
Proof.
  intros z st n pos f vs calls l name dim typ r st' RA M IO SY PR FI NF H.
  assert (FE : f = -1 \/ exists g, find_filter (d_filts (g_dic st)) f = Some g). { right. destruct (filter_is_holds _ _ _ _ FI) as [(h & l' & s & F & _) _]. eauto. }
  destruct (C38_elements _ _ _ _ _ _ _ _ _ _ _ _ RA M IO SY PR FE H) as (ks & SS & EL & CF & _). exists ks. split; [exact SS|]. split; [|exact CF].
  intros k. rewrite EL. unfold element. split.
  - intros (A & B & [C|(u & C & D)]); [contradiction|]. split; [exact A|]. split; [exact B|]. exists u. split; [exact C|]. apply (C18_filter_is_what_was_registered _ _ _ _ FI). exact D.
  - intros (A & B & u & C & D). split; [exact A|]. split; [exact B|]. right. exists u. split; [exact C|]. apply (C18_filter_is_what_was_registered _ _ _ _ FI). exact D.
Qed.

(** ** A concrete case *)

(** The file of Cases.v; San-Diego and new york get the user numbers 1 and 2, and filter 4
    holds number 2; numbers 0, 3 and 9 are refused. *)
Definition fl_users : list call := [gdxUELRegisterStrStart; gdxUELRegisterStr (s2z "san-diego"); gdxUELRegisterStr (s2z "New York"); gdxUELRegisterDone].
Definition fl_a : gst := state_of (run rle_zlib fl_users case_read).
Definition fl_regs : list Z := [2; 0; 3; 9; 2].
Definition fl_a1 : gst := state_of (exec rle_zlib (gdxFilterRegisterStart 4) fl_a).
Definition fl_rs : list resp := answer_of (run rle_zlib (List.map gdxFilterRegister fl_regs) fl_a1).
Definition fl_a2 : gst := state_of (run rle_zlib (List.map gdxFilterRegister fl_regs) fl_a1).
Definition fl_b : gst := state_of (exec rle_zlib gdxFilterRegisterDone fl_a2).
Definition fl_c : gst := state_of (exec rle_zlib (gdxSymbolInfo 1) fl_b).

Lemma fl_reading : in_reading rle_zlib fl_users fl_a.
Proof.
  exists case_read. split; [exists case_closed, (s2z "f.gdx"), 0, (ret_i 1 [0]); split; [vm_compute; reflexivity|reflexivity]|].
  apply (during_test _ _ _ (answer_of (run rle_zlib fl_users case_read))); vm_compute; reflexivity.
Qed.
Lemma fl_defines : defines rle_zlib 4 fl_regs fl_rs fl_a fl_b.
Proof. exists (ret 1), fl_a1, fl_a2, (ret 1). split; [vm_compute; reflexivity|]. split; [reflexivity|]. split; [vm_compute; reflexivity|vm_compute; reflexivity]. Qed.
Lemma fl_is : filter_is rle_zlib 4 [2; 2] fl_c.
Proof.
  exists fl_users, fl_a, fl_regs, fl_rs, fl_b. split; [exact fl_reading|]. split; [exact fl_defines|]. split; [vm_compute; reflexivity|].
  assert (E : exists r, exec rle_zlib (gdxSymbolInfo 1) fl_b = Done (r, fl_c)) by (eexists; vm_compute; reflexivity). revert E. generalize fl_b fl_c. intros b c (r & E).
  eapply (later_call _ _ b (gdxSymbolInfo 1)); [reflexivity|exact Logic.I|reflexivity|exact E|apply later_now].
Qed.
Example C18_case : forall v, admits fl_c 4 v <-> In v [2; 2].
Proof. apply (C18_filter_is_what_was_registered _ _ _ _ fl_is). Qed.
Example C18_case_accepted : Forall2 (fun v r => r_code r = 1 <-> 1 <= v <= 2 /\ exists s, gets rle_zlib fl_a v s) fl_regs fl_rs.
Proof. assert (T : totals rle_zlib fl_a 3 2) by ans. exact (C18_accepted_exactly _ _ _ _ _ _ _ _ _ fl_reading fl_defines T). Qed.
Example C18_case_refused : exists a3, exec rle_zlib (gdxFilterRegister 3) fl_a2 = Done (ret 0, a3) /\ refused_call rle_zlib fl_a2 a3 (ret 0).
Proof.
  assert (E1 : exec rle_zlib (gdxFilterRegisterStart 4) fl_a = Done (ret 1, fl_a1)) by (vm_compute; reflexivity).
  assert (E2 : run rle_zlib (List.map gdxFilterRegister fl_regs) fl_a1 = Done (fl_rs, fl_a2)) by (vm_compute; reflexivity).
  assert (E3 : exists a3, exec rle_zlib (gdxFilterRegister 3) fl_a2 = Done (ret 0, a3)) by ans. pose proof fl_reading as R. revert E1 E2 E3 R. generalize fl_a fl_a1 fl_rs fl_a2. intros a a1 rs a2 E1 E2 (a3 & E3) R.
  exists a3. split; [exact E3|]. apply (C18_refused_registrations _ _ _ _ _ _ _ _ _ _ _ _ R E1 eq_refl E2 E3). discriminate.
Qed.
Example C18_case_exists : answers rle_zlib fl_c (gdxFilterExists 4) (ret 1) /\ answers rle_zlib fl_c (gdxFilterExists 5) (ret 0).
Proof. split; ans. Qed.

Print Assumptions C18_filter_is_what_was_registered.
Print Assumptions C18_accepted_exactly.
Print Assumptions C18_refused_registrations.
Print Assumptions C18_defined_filters_exist.
Print Assumptions C18_only_defined_filters_exist.
Print Assumptions C18_domain_elements.
