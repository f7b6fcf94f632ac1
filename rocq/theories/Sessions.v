(** * Sessions: how objects come to be open, and what closing does

    The states in which an object is after a successful opening call, the effect of
    closing on properties of the object, and the special-value tables over whole
    histories. *)

From Coq Require Import String.
From Verif Require Import Base Prim Values Records LinkedData StrHash IntMap Strings AStream BufStream State
  FileImage ApiCore ApiFile ApiWrite ApiRead Api FileFacts StreamFacts OpenFacts DicInv Footprint SessInv FileFlow.
Open Scope Z_scope.
Open Scope list_scope.

(** ** Operations on the stream change the stream only *)

Section Z.
Context (z : zlib).

Definition same_but_file (a b : gst) : Prop := exists f, b = set_g_fil f a.

Lemma sbf_refl : forall a, same_but_file a a.
Proof. intros a. exists (g_fil a). destruct a; reflexivity. Qed.
Lemma sbf_log : forall s o a, same_but_file a (s_log s o a).
Proof. intros s o a. eexists. reflexivity. Qed.
Lemma s_write_sbf : forall b st st', s_write b st = Done st' -> same_but_file st st'.
Proof.
  intros b st st' H. unfold s_write in H. destruct (f_strm _) as [s|]; [|discriminate]. destruct (as_write b s) as [s'|]; [|discriminate].
  injection H as <-. apply sbf_log.
Qed.
Lemma s_setpos_sbf : forall p st st', s_setpos z p st = Done st' -> same_but_file st st'.
Proof.
  intros p st st' H. unfold s_setpos in H. destruct (f_strm _) as [s|]; [|discriminate]. destruct (p <? 0); [discriminate|].
  injection H as <-. apply sbf_log.
Qed.
Lemma s_setcomp_sbf : forall c st st', s_setcomp z c st = Done st' -> same_but_file st st'.
Proof.
  intros c st st' H. unfold s_setcomp in H. destruct (f_strm _) as [s|]; [|discriminate]. injection H as <-. apply sbf_log.
Qed.
Lemma s_getpos_sbf : forall st p st', s_getpos z st = Done (p, st') -> same_but_file st st'.
Proof.
  intros st p st' H. unfold s_getpos in H. destruct (f_strm _) as [s|]; [|discriminate]. destruct (as_getpos z s) as [[q s']|]; [|discriminate].
  injection H as <- <-. apply sbf_log.
Qed.
Lemma s_parse_sbf : forall {A} (p : parser A) st a st', s_parse z p st = Done (a, st') -> same_but_file st st'.
Proof.
  intros A p st a st' H. unfold s_parse in H. destruct (f_strm _) as [s|]; [|discriminate]. cbv zeta in H.
  destruct (as_view z (as_flush z s)) as [v|]; [|discriminate]. destruct (p v) as [[x v']|]; [|discriminate].
  injection H as <- <-. apply sbf_log.
Qed.
End Z.

(** ** After opening *)

Section Open.
Context (z : zlib).

Definition created (st : gst) : Prop :=
  exists st0 name prod compr r, exec z (gdxOpenWriteEx name prod compr) st0 = Done (r, st) /\ r_code r = 1.
Definition opened_to_read (st : gst) : Prop :=
  exists st0 name rm r, exec z (gdxOpenReadEx name rm) st0 = Done (r, st) /\ r_code r = 1.

Definition clean_errors (e : errs) : Prop := r_last e = 0 /\ r_cnt e = 0 /\ r_tot e = 0.
Definition has_stream (st : gst) : Prop := exists s, f_strm (g_fil st) = Some s.

Lemma created_facts : forall st, created st ->
  g_mode st = fw_init /\ has_stream st /\ clean_errors (g_err st) /\ e_tab (g_env st) = default_tab /\ e_rtab (g_env st) = default_tab /\
  exists mt uc, g_dic st = mkDic [] [] im_new None (Some [([], 0)]) mt [] [] [] uc true true true.
Proof.
  intros st (st0 & name & prod & compr & r & H & RC). cbn [exec] in H. apply open_write_eq in H; [|exact RC]. destruct H as (_ & _ & _ & H).
  destruct (s_write _ _) as [s1|] eqn:W1 in H; [|discriminate]. cbn [obind] in H. apply s_write_sbf in W1. destruct W1 as (f1 & ->).
  destruct (s_getpos _ _) as [[p1 s2]|] eqn:W2 in H; [|discriminate]. cbn [obind] in H. apply s_getpos_sbf in W2. destruct W2 as (f2 & ->).
  destruct (s_write _ _) as [s3|] eqn:W3 in H; [|discriminate]. cbn [obind] in H. apply s_write_sbf in W3. destruct W3 as (f3 & ->).
  destruct (s_getpos _ _) as [[p2 s4]|] eqn:W4 in H; [|discriminate]. cbn [obind] in H.
  assert (ST : has_stream s4).
  { unfold s_getpos in W4. destruct (f_strm _) as [s|] eqn:E in W4; [|discriminate]. destruct (as_getpos z s) as [[q s']|]; [|discriminate].
    injection W4 as _ <-. eexists. reflexivity. }
  apply s_getpos_sbf in W4. destruct W4 as (f4 & ->). injection H as <- <-.
  split; [reflexivity|]. split; [exact ST|]. split; [split; [reflexivity|split; reflexivity]|]. split; [reflexivity|]. split; [reflexivity|].
  eexists _, _. reflexivity.
Qed.

(** A file opened for reading: no label has a user number, there is no filter. *)
Definition fresh_dic (d : dic) : Prop :=
  d_nn d = true /\ d_un d = true /\ d_usr d = im_new /\ d_status d = None /\ d_filts d = [] /\ d_uelcnt d = zlen (d_uels d) /\
  Forall (fun e => snd e = -1) (d_uels d).

Definition good_end (Q : gst -> Prop) (x : outcome (resp * gst)) : Prop := forall r st, x = Done (r, st) -> r_code r = 1 -> Q st.

Lemma check_or_end : forall Q c e st k, (c = true -> good_end Q (k st)) -> good_end Q (check_or c e st k).
Proof. intros Q c e st k H. destruct c; [apply H; reflexivity|]. intros r s E RC. injection E as <- <-. discriminate. Qed.
Lemma bind_end : forall {A} Q (x : outcome (A * gst)) k, (forall a s, x = Done (a, s) -> good_end Q (k (a, s))) -> good_end Q (obind x k).
Proof. intros A Q [[a s]|] k H; [apply H; reflexivity|]. intros r st E. discriminate. Qed.
Lemma bindg_end : forall Q (x : outcome gst) k, (forall s, x = Done s -> good_end Q (k s)) -> good_end Q (obind x k).
Proof. intros Q [s|] k H; [apply H; reflexivity|]. intros r st E. discriminate. Qed.
Lemma bindp_end : forall {A} Q (x : outcome A) k, (forall a, x = Done a -> good_end Q (k a)) -> good_end Q (obind x k).
Proof. intros A Q [a|] k H; [apply H; reflexivity|]. intros r st E. discriminate. Qed.

Ltac sbf H := first [apply s_parse_sbf in H | apply s_getpos_sbf in H | apply s_setpos_sbf in H | apply s_setcomp_sbf in H];
  let f := fresh "f" in destruct H as (f & ->).
Ltac step_end :=
  match goal with
  | |- good_end _ (@obind (_ * gst) _ (s_parse _ _ _) _) => apply bind_end; let H := fresh in intros ? ? H; sbf H
  | |- good_end _ (@obind (_ * gst) _ (s_getpos _ _) _) => apply bind_end; let H := fresh in intros ? ? H; sbf H
  | |- good_end _ (@obind gst _ _ _) => apply bindg_end; let H := fresh in intros ? H; sbf H
  | |- good_end _ (check_or _ _ _ _) => apply check_or_end; intros _
  end; cbv beta iota zeta.

Lemma upd_dic_fil : forall f g st, upd_dic g (set_g_fil f st) = set_g_fil f (upd_dic g st).
Proof. reflexivity. Qed.

(** What the sections leave alone. *)
Definition labels_part (d : dic) := (d_nn d, d_un d, d_usr d, d_status d, d_filts d, d_uelcnt d, d_uels d).

Lemma open_doms_end : forall Q m st k,
  (forall st', labels_part (g_dic st') = labels_part (g_dic st) -> g_err st' = g_err st -> good_end Q (k st')) ->
  good_end Q (open_doms z m st k).
Proof.
  intros Q m st k H. unfold open_doms. cbv zeta. destruct (_ && _); [|apply H; reflexivity].
  repeat step_end. apply H; reflexivity.
Qed.
Lemma open_acros_end : forall Q m st k,
  (forall st', labels_part (g_dic st') = labels_part (g_dic st) -> g_err st' = g_err st -> good_end Q (k st')) ->
  good_end Q (open_acros z m st k).
Proof.
  intros Q m st k H. unfold open_acros. cbv zeta. destruct (7 <=? _); [|apply H; reflexivity].
  repeat step_end. apply H; reflexivity.
Qed.
Lemma open_texts_end : forall Q m st k,
  (forall st', labels_part (g_dic st') = labels_part (g_dic st) -> g_err st' = g_err st -> good_end Q (k st')) ->
  good_end Q (open_texts z m st k).
Proof.
  intros Q m st k H. unfold open_texts. cbv zeta. repeat step_end. apply bindp_end. intros [texts mt] _. cbv beta iota zeta.
  repeat step_end. apply H; reflexivity.
Qed.
Lemma open_uels_end : forall Q m st k,
  (forall st', d_nn (g_dic st') = d_nn (g_dic st) -> d_filts (g_dic st') = d_filts (g_dic st) -> d_un (g_dic st') = true ->
     d_usr (g_dic st') = im_new -> d_status (g_dic st') = None -> d_uelcnt (g_dic st') = zlen (d_uels (g_dic st')) ->
     Forall (fun e => snd e = -1) (d_uels (g_dic st')) -> g_err st' = g_err st -> good_end Q (k st')) ->
  good_end Q (open_uels z m st k).
Proof.
  intros Q m st k H. unfold open_uels. cbv zeta. repeat step_end. apply H; try reflexivity.
  - cbn. unfold zlen. rewrite map_length. reflexivity.
  - cbn. apply Forall_forall. intros e I. apply in_map_iff in I. destruct I as (s & <- & _). reflexivity.
Qed.
Lemma open_symbs_end : forall Q m st k,
  (forall st', d_nn (g_dic st') = true -> d_filts (g_dic st') = [] -> g_err st' = g_err st -> good_end Q (k st')) ->
  good_end Q (open_symbs z m st k).
Proof.
  intros Q m st k H. unfold open_symbs. cbv zeta. repeat step_end.
  all: destruct a0; repeat step_end; apply H; reflexivity.
Qed.
Lemma open_header_end : forall Q st k, (forall st', g_err st' = g_err st -> good_end Q (k st')) -> good_end Q (open_header z st k).
Proof.
  intros Q st k H. unfold open_header. cbv zeta. step_end. destruct a as [bo|].
  2: { intros r s E RC. injection E as <- <-. discriminate. }
  step_end. step_end. step_end. step_end. step_end. step_end.
  destruct (_ <=? 5); cbn [obind].
  all: repeat step_end; apply H; reflexivity.
Qed.

Lemma opened_read_facts : forall st, opened_to_read st ->
  g_mode st = fr_init /\ has_stream st /\ clean_errors (g_err st) /\ e_tab (g_env st) = default_tab /\ e_rtab (g_env st) = default_tab /\ fresh_dic (g_dic st).
Proof.
  intros st (st0 & name & rm & r & H & RC). cbn [exec] in H. unfold open_read in H.
  destruct (mode_in (g_mode st0) [f_not_open]); cbn [negb] in H; [|injection H as <- <-; discriminate]. cbv zeta in H.
  destruct name as [|c name]; [injection H as <- <-; discriminate|].
  destruct (disk_get _ _) as [F|]; [|injection H as <- <-; discriminate].
  match type of H with open_header z ?s0 _ = _ => assert (CE : clean_errors (g_err s0)) by (split; [reflexivity|split; reflexivity]); generalize dependent s0 end.
  intros s0 H CE. revert H. revert r st RC. 
  match goal with |- forall r st, r_code r = 1 -> ?x = Done (r, st) -> ?Q => enough (GE : good_end (fun st => g_mode st = fr_init /\ has_stream st /\ clean_errors (g_err st) /\
    e_tab (g_env st) = default_tab /\ e_rtab (g_env st) = default_tab /\ fresh_dic (g_dic st)) x) by (intros r st RC H; exact (GE r st H RC)) end.
  apply open_header_end. intros s1 E1. step_end. apply open_symbs_end. intros s2 N2 F2 E2. apply open_uels_end.
  intros s3 N3 F3 U3 I3 S3 C3 L3 E3.
  match goal with |- good_end ?Q (if _ then open_texts z _ _ ?k else _) => assert (RS : forall s, labels_part (g_dic s) = labels_part (g_dic s3) -> g_err s = g_err s3 -> good_end Q (k s)) end.
  { intros s4 LP4 E4. apply open_acros_end. intros s5 LP5 E5. apply open_doms_end. intros s6 LP6 E6. cbv beta iota zeta.
    assert (LP : labels_part (g_dic s6) = labels_part (g_dic s3)) by congruence.
    assert (EE : g_err s6 = g_err s0) by (rewrite E6, E5, E4, E3, E2; exact E1). clear LP6 LP5 LP4 E6 E5 E4.
    apply bindg_end. intros s7 SC. assert (HS : has_stream s7).
    { unfold s_setcomp in SC. destruct (f_strm _); [|discriminate]. injection SC as <-. eexists. reflexivity. }
    apply s_setcomp_sbf in SC. destruct SC as (f7 & ->). intros r st E RC. injection E as <- <-.
    split; [reflexivity|]. split; [exact HS|].
    split. { destruct CE as (CE1 & CE2 & CE3). cbn. rewrite EE. repeat split; assumption. }
    split; [reflexivity|]. split; [reflexivity|].
    unfold labels_part in LP. injection LP as LP1 LP2 LP3 LP4 LP5 LP6 LP7. unfold fresh_dic. cbn.
    rewrite LP1, LP2, LP3, LP4, LP5, LP6, LP7, N3, F3. repeat split; assumption. }
  destruct (Z.rem rm 2 =? 0).
  - apply open_texts_end. intros s4 LP4 E4. apply RS; assumption.
  - apply RS; reflexivity.
Qed.

End Open.

(** ** Closing *)

Section Close.
Context (z : zlib) (cc : call) (P : gst -> Prop).
Context (CL : forall a b, P a -> atom cc a b -> P b) (FI : fills cc = true).

Lemma finalize_keeps : forall st, P st -> okg P (finalize z st).
Proof.
  intros st Q. pose proof (fills_puts _ FI) as PU. unfold finalize. destruct (negb _); [exact I|].
  repeat first [ apply okg_bindg; [first [eapply s_setcomp_ok|eapply s_setpos_ok|eapply s_write_ok]; eassumption|intros ? _ ?]
               | apply okg_bind; [eapply s_getpos_ok; eassumption|intros ? ? _ ?] ].
  eapply s_write_ok; eassumption.
Qed.

Context (RL : forall st, P st -> P (snd (release z st))).

Lemma close_keeps : forall st, P st -> ok P (close z st).
Proof.
  intros st Q. unfold close. apply ok_bindg.
  { destruct (mode_in _ _); [eapply write_done_ok; eassumption|exact Q]. }
  intros s1 _ Q1. apply ok_bindg.
  { destruct (mode_in _ _); [apply finalize_keeps; assumption|exact Q1]. }
  intros s2 _ Q2. pose proof (RL s2 Q2) as R. destruct (release z s2). exact R.
Qed.
Lemma destroy_keeps : forall st, P st -> ok P (destroy z st).
Proof.
  intros st Q. pose proof (fills_puts _ FI) as PU. unfold destroy. destruct (mode_in _ _); [exact Q|]. apply close_keeps. eapply CL; [exact Q|constructor; left; exact PU].
Qed.
End Close.

(** ** Opening, successful or not *)

Section OpenAny.
Context (z : zlib) (P : gst -> Prop).
Context (PF : forall f st, P st -> P (set_g_fil f st)).
Context (PD : forall d st, P st -> P (set_g_dic d st)).
Context (PM : forall m st, P st -> P (set_g_mode m st)).
Context (PW : forall w st, P st -> P (set_g_wrk w st)).
Context (PE : forall e st, P st -> P (set_g_err e st)).
Context (PR : forall st, P st -> P (reset_special st)).

Lemma PF' : forall f st, P st -> P (upd_fil f st). Proof. intros. apply PF. assumption. Qed.
Lemma PD' : forall f st, P st -> P (upd_dic f st). Proof. intros. apply PD. assumption. Qed.
Lemma PW' : forall f st, P st -> P (upd_wrk f st). Proof. intros. apply PW. assumption. Qed.
Lemma PE' : forall f st, P st -> P (upd_err f st). Proof. intros. apply PE. assumption. Qed.
Lemma PS : forall n st, P st -> P (set_error n st).
Proof. intros. unfold set_error. destruct (n =? 0); [assumption|]. apply PE'. assumption. Qed.
Lemma PB : forall a b, same_but_file a b -> P a -> P b.
Proof. intros a b (f & ->) Q. apply PF. exact Q. Qed.

Ltac keep := repeat match goal with
  | |- P (upd_fil _ _) => apply PF'
  | |- P (upd_dic _ _) => apply PD'
  | |- P (upd_wrk _ _) => apply PW'
  | |- P (upd_err _ _) => apply PE'
  | |- P (set_error _ _) => apply PS
  | |- P (set_g_mode _ _) => apply PM
  | |- P (reset_special _) => apply PR
  | |- P _ => assumption
  end.

Lemma file_error_any : forall st, P st -> ok P (file_error st).
Proof. intros. unfold file_error, ok. keep. Qed.
Lemma check_or_any : forall b e st k, P st -> (forall s, P s -> ok P (k s)) -> ok P (check_or b e st k).
Proof. intros b e st k Q K. unfold check_or. destruct b; [apply K; exact Q|apply file_error_any; keep]. Qed.

Ltac step_any := cbv beta iota zeta;
  match goal with
  | |- ok P (check_or _ _ _ _) => apply check_or_any; [solve [keep]|intros ? ?]
  | |- ok P (@obind gst _ ?x _) => apply ok_bindg; [let H := fresh in destruct x eqn:H; [|exact I]; cbn [okg];
        first [apply s_setcomp_sbf in H|apply s_setpos_sbf in H|apply s_write_sbf in H]; eapply PB; [exact H|solve [keep]]|intros ? ? ?]
  | |- ok P (@obind (_ * gst) _ ?x _) => apply ok_bind; [let H := fresh in destruct x as [[? ?]|] eqn:H; [|exact I]; cbn [ok];
        first [apply s_parse_sbf in H|apply s_getpos_sbf in H]; eapply PB; [exact H|solve [keep]]|intros ? ? ? ?]
  end.

Lemma open_doms_any : forall m st k, P st -> (forall s, P s -> ok P (k s)) -> ok P (open_doms z m st k).
Proof. intros m st k Q K. unfold open_doms. cbv zeta. destruct (_ && _); [|apply K; keep]. repeat step_any. apply K. assumption. Qed.
Lemma open_acros_any : forall m st k, P st -> (forall s, P s -> ok P (k s)) -> ok P (open_acros z m st k).
Proof. intros m st k Q K. unfold open_acros. cbv zeta. destruct (7 <=? _); [|apply K; keep]. repeat step_any. apply K. assumption. Qed.
Lemma open_texts_any : forall m st k, P st -> (forall s, P s -> ok P (k s)) -> ok P (open_texts z m st k).
Proof.
  intros m st k Q K. unfold open_texts. repeat step_any. apply ok_pure. intros [texts mt] _. repeat step_any. apply K. assumption.
Qed.
Lemma open_uels_any : forall m st k, P st -> (forall s, P s -> ok P (k s)) -> ok P (open_uels z m st k).
Proof. intros m st k Q K. unfold open_uels. repeat step_any. apply K. assumption. Qed.
Lemma open_symbs_any : forall m st k, P st -> (forall s, P s -> ok P (k s)) -> ok P (open_symbs z m st k).
Proof.
  intros m st k Q K. unfold open_symbs. do 5 step_any. cbv beta iota zeta. destruct a0; repeat step_any; apply K; assumption.
Qed.
Lemma open_header_any : forall st k, P st -> (forall s, P s -> ok P (k s)) -> ok P (open_header z st k).
Proof.
  intros st k Q K. unfold open_header. step_any. destruct a as [bo|]; [|apply file_error_any; keep].
  do 6 step_any. cbv beta iota zeta. destruct (_ <=? 5); cbn [obind]; repeat step_any; apply K; assumption.
Qed.

Theorem open_read_any : forall name rm st, P st -> ok P (open_read z name rm st).
Proof.
  intros name rm st Q. unfold open_read. destruct (negb _); [exact Q|]. cbv zeta.
  assert (Q0 : P (forget_cur (upd_wrk (set_w_rd None) (init_errors st)))) by (unfold forget_cur, init_errors; keep).
  destruct name as [|c name]; [apply file_error_any; keep|].
  destruct (disk_get _ _) as [F|]; [|apply file_error_any; keep].
  apply open_header_any; [apply PF'; exact Q0|]. intros s1 Q1. step_any. apply open_symbs_any; [keep|]. intros s3 Q3. apply open_uels_any; [keep|]. intros s4 Q4.
  match goal with |- ok P (if _ then open_texts z _ _ ?k else _) => assert (RS : forall s, P s -> ok P (k s)) end.
  { intros s5 Q5. apply open_acros_any; [keep|]. intros s6 Q6. apply open_doms_any; [keep|]. intros s7 Q7. step_any. assumption. }
  destruct (Z.rem rm 2 =? 0); [apply open_texts_any; assumption|apply RS; assumption].
Qed.

Theorem open_write_any : forall name prod compr st, P st -> ok P (open_write z name prod compr st).
Proof.
  intros name prod compr st Q. unfold open_write. destruct (negb _); [exact Q|]. destruct name as [|c name]; [cbn [ok]; keep|].
  unfold create_file. apply ok_pure. intros p _.
  assert (Q0 : P (fresh_session z (c :: name) prod (compr mod 2) st)) by (unfold fresh_session, open_stream, forget_cur, init_errors; keep).
  repeat step_any. cbn [ok]. unfold ready_session. keep.
Qed.

Context (CK : forall st, P st -> ok P (close z st)).
Theorem open_append_any : forall name st, P st -> ok P (open_append z name st).
Proof.
  intros name st Q. unfold open_append. apply ok_bind; [apply open_read_any; exact Q|]. intros r s1 _ Q1.
  cbv beta iota zeta. destruct (negb _); [exact Q1|]. destruct (f_ver _ <? 7).
  - apply ok_bind; [apply CK; keep|]. intros r2 s2 _ Q2. exact Q2.
  - repeat step_any. cbn [ok]. keep.
Qed.
End OpenAny.

(** Every history of an object, whatever files it opened and closed. *)
Section Any.
Context (z : zlib) (P : gst -> Prop).
Context (PF : forall f st, P st -> P (set_g_fil f st)).
Context (PD : forall d st, P st -> P (set_g_dic d st)).
Context (PW : forall w st, P st -> P (set_g_wrk w st)).
Context (PE : forall e st, P st -> P (set_g_err e st)).
Context (PR : forall st, P st -> P (reset_special st)).
Context (RL : forall st, P st -> P (snd (release z st))).

Theorem exec_one : forall c st, (forall c' a b, c' = c \/ c' = gdxClose -> P a -> atom c' a b -> P b) -> call_ok c -> P st -> ok P (exec z c st).
Proof.
  intros c st CL0 OK Q. assert (CL : forall a b, P a -> atom c a b -> P b) by (intros a b; apply CL0; left; reflexivity).
  assert (CC : forall a b, P a -> atom gdxClose a b -> P b) by (intros a b; apply CL0; right; reflexivity). clear CL0. destruct (session_call c) eqn:C.
  { eapply session_ok; try eassumption; intros; apply PE; assumption. }
  assert (PM : forall m st, P st -> P (set_g_mode m st)) by (intros; eapply CC; [eassumption|constructor; left; reflexivity]).
  destruct c; try discriminate C; cbn [exec].
  - apply open_write_any; assumption.
  - apply open_read_any; assumption.
  - apply open_append_any; try assumption. intros. eapply (close_keeps z gdxClose); eauto.
  - eapply (close_keeps z gdxClose); eauto.
  - eapply (destroy_keeps z gdxClose); eauto.
Qed.

Context (CL : forall c a b, P a -> atom c a b -> P b).
Theorem exec_any : forall c st, call_ok c -> P st -> ok P (exec z c st).
Proof. intros c st. apply exec_one. intros c' a b _. apply CL. Qed.
Theorem run_any : forall cs st rs st', Forall call_ok cs -> P st -> run z cs st = Done (rs, st') -> P st'.
Proof.
  induction cs as [|c cs IH]; intros st rs st' OK Q R; cbn [run] in R.
  - injection R as _ <-. exact Q.
  - inversion OK; subst. pose proof (exec_any c st ltac:(assumption) Q) as X.
    destruct (exec z c st) as [[r s]|]; [|discriminate]. cbn [obind] in R.
    destruct (run z cs s) as [[rs' s']|] eqn:R2; [|discriminate]. injection R as _ <-. eapply IH; eassumption.
Qed.
End Any.
