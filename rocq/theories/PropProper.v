(** * C58: a program that does everything right loses nothing *)

From Coq Require Import String Permutation Sorted.
From Verif Require Import Base Prim Values Records LinkedData StrHash IntMap Strings AStream BufStream State
  FileImage ApiCore ApiFile ApiWrite ApiRead Api FileFacts BlockFacts StreamFacts OpenFacts DicInv WriteInv WriteSteps Journal WriteCalls WriteTrace
  Footprint SessInv FileFlow Sessions Vocab PropErr Reopen ReadFacts ReadRecs ReadLoops Cases PropNames PropMeta Segment PropStruct PropTexts
  LabelFacts Buffered Contents MapFacts Domains Wrote PropRead PropChecks PropCrash PropLabels PropStrings.
Open Scope Z_scope.
Open Scope list_scope.

(** ** Specification *)

(** The raw records that are handed over by the calls [cs]. *)
Fixpoint handed_raw (cs : list call) : list (list Z * list Z) :=
  match cs with
  | [] => []
  | gdxDataWriteRaw keys vals :: cs' => (keys, vals) :: handed_raw cs'
  | _ :: cs' => handed_raw cs'
  end.
(** What counts of a record of a symbol. *)
Definition cut (dim typ : Z) (kv : list Z * list Z) : list Z * list Z := (firstn (Z.to_nat dim) (fst kv), firstn (values_per typ) (snd kv)).
(** Calls that write records and element texts. *)
Definition record_call (c : call) : Prop := match c with gdxDataWriteRaw _ _ | gdxAddSetText _ => True | _ => False end.

(** ** Proofs *)

Lemma handed_app : forall a b, handed_raw (a ++ b) = handed_raw a ++ handed_raw b.
Proof. induction a as [|c a IH]; intros b; [reflexivity|]. cbn [app handed_raw]. rewrite IH. destruct c; reflexivity. Qed.
Lemma accepted_app : forall a b ra rb, length ra = length a -> accepted_raw (a ++ b) (ra ++ rb) = accepted_raw a ra ++ accepted_raw b rb.
Proof.
  induction a as [|c a IH]; intros b [|r ra] rb L; try discriminate L; [reflexivity|]. injection L as L. cbn [app accepted_raw]. rewrite IH by exact L. rewrite app_assoc. reflexivity.
Qed.
Lemma allowed_none : forall n ks, allowed (repeat None n) ks = true.
Proof. induction n as [|n IH]; intros [|k ks]; try reflexivity. cbn [repeat allowed]. apply IH. Qed.
Lemma record_within : forall c, record_call c -> within c = true /\ no_domain c = true /\ names_of c = [].
Proof. intros c R. destruct c; try destruct R; repeat split. Qed.
Lemma inside_nonneg : forall mms ks, bounds_okb mms = true -> inside mms ks = true -> Forall (fun k => 0 <= k) ks.
Proof.
  induction mms as [|mm mms IH]; intros [|k ks] B H; try discriminate H; [constructor|]. cbn [inside] in H. unfold bounds_okb in B. cbn [forallb] in B. rewrite !andb_true_iff in *. destruct B as ((((B1 & _) & _) & _) & B2).
  destruct H as ((H1 & _) & H2). constructor; [lia|]. apply IH; assumption.
Qed.
Lemma sorted_last : forall l a, StronglySorted lex_lt (l ++ [a]) -> Forall (fun x => lex_lt x a) l.
Proof.
  induction l as [|x l IH]; intros a H; [constructor|]. cbn [app] in H. inversion_clear H as [|? ? H1 H2]. constructor; [|apply IH; exact H1]. rewrite Forall_forall in H2. apply H2. apply in_or_app. right. left. reflexivity.
Qed.
Lemma sorted_front : forall l m, StronglySorted lex_lt (l ++ m) -> StronglySorted lex_lt l.
Proof.
  induction l as [|x l IH]; intros m H; [constructor|]. cbn [app] in H. inversion_clear H as [|? ? H1 H2]. constructor; [eapply IH; exact H1|]. apply Forall_app in H2. apply H2.
Qed.

Section Z.
Context (z : zlib).

Lemma prepare_err : forall name text dim typ uinfo st st', prepare_symbol_write z name text dim typ uinfo st = Done (true, st') -> r_tot (g_err st') = r_tot (g_err st).
Proof.
  intros name text dim typ uinfo st st' H. unfold prepare_symbol_write in H. cbv zeta in H.
  destruct (mode_in _ _); cbn [negb] in H; [|discriminate H].
  unfold good_new_symbol in H. destruct (1 <=? _); [discriminate H|]. destruct (0 <=? acro_named _ _); [discriminate H|]. destruct (good_ident name); [|discriminate H].
  cbn [negb] in H. destruct ((0 <=? dim) && (dim <=? 20)); cbn [negb] in H; [|discriminate H].
  destruct ((0 <=? typ) && (typ <=? dt_equ)); cbn [negb] in H; [|discriminate H].
  unfold s_setcomp in H. destruct (f_strm _) as [s0|]; [|discriminate H]. rewrite obind_done in H. injection H as <-. reflexivity.
Qed.
Lemma init_err : forall k st st', init_do_write z k st = Done st' -> g_err st' = g_err st.
Proof.
  intros k st st' H. unfold init_do_write in H. cbv zeta in H.
  destruct (s_setpos z _ st) as [s1|] eqn:W1; [|discriminate]. rewrite obind_done in H. apply s_setpos_sbf in W1. destruct W1 as (f1 & ->).
  destruct (cur_sym _) as [[n s]|]; [|discriminate H]. rewrite obind_done in H. apply s_write_sbf in H. destruct H as (f2 & ->). reflexivity.
Qed.
Lemma raw_accept : forall c id text dim typ uinfo mms st r st', raw_start c id text dim typ uinfo mms -> exec z c st = Done (r, st') -> r_code r = 1 ->
  r = ret 1 /\ g_mode st' = fw_dom_raw /\ r_tot (g_err st') = r_tot (g_err st).
Proof.
  intros c id text dim typ uinfo mms st r st' RS H C. destruct RS.
  - change (write_raw_start z id text dim typ uinfo st = Done (r, st')) in H. unfold write_raw_start in H.
    destruct (prepare_symbol_write _ _ _ _ _ _ _) as [[ok s1]|] eqn:E; [|discriminate H]. rewrite obind_done in H.
    destruct ok; cbn [negb] in H; [|injection H as <- _; discriminate C]. cbv zeta in H. destruct (init_do_write _ _ _) as [s2|] eqn:E2; [|discriminate H]. rewrite obind_done in H.
    unfold okay in H. injection H as <- <-. split; [reflexivity|]. split; [reflexivity|]. apply init_err in E2. apply prepare_err in E. change (g_err (set_g_mode fw_dom_raw s2)) with (g_err s2). rewrite E2. exact E.
  - change (write_raw_start_bounds z id text dim typ uinfo lo hi st = Done (r, st')) in H. unfold write_raw_start_bounds in H.
    destruct (prepare_symbol_write _ _ _ _ _ _ _) as [[ok s1]|] eqn:E; [|discriminate H]. rewrite obind_done in H.
    destruct ok; cbn [negb] in H; [|injection H as <- _; discriminate C]. cbv zeta in H. destruct (_ || _); [discriminate H|].
    destruct (init_do_write _ _ _) as [s2|] eqn:E2; [|discriminate H]. rewrite obind_done in H.
    unfold okay in H. injection H as <- <-. split; [reflexivity|]. split; [reflexivity|]. apply init_err in E2. apply prepare_err in E. change (g_err (set_g_mode fw_dom_raw s2)) with (g_err s2). rewrite E2. exact E.
Qed.
Lemma raw_finish : forall st r st', In (g_mode st) [fw_dom_raw; fw_raw_data] -> exec z gdxDataWriteDone st = Done (r, st') -> r = ret 1 /\ g_mode st' = fw_init /\ r_tot (g_err st') = r_tot (g_err st).
Proof.
  intros st r st' M H. change (data_write_done z st = Done (r, st')) in H. unfold data_write_done, checked in H.
  assert (MI : mode_in (g_mode st) [fw_raw_data; fw_map_data; fw_str_data; fw_dom_raw; fw_dom_map; fw_dom_str] = true) by (destruct M as [<-|[<-|[]]]; reflexivity). rewrite MI in H.
  destruct (write_done z st) as [s1|] eqn:E; [|discriminate H]. rewrite obind_done in H. unfold okay in H. injection H as <- <-. split; [reflexivity|]. split; [eapply write_done_mode; exact E|].
  unfold write_done in E. assert (MR : mode_in (g_mode st) [fw_raw_data; fw_dom_raw] = true) by (destruct M as [<-|[<-|[]]]; reflexivity). rewrite MR, obind_done in E.
  destruct (s_write _ _) as [s2|] eqn:E1; [|discriminate E]. rewrite obind_done in E. apply s_write_sbf in E1. destruct E1 as (f1 & ->).
  destruct (s_getpos _ _) as [[p s3]|] eqn:E2; [|discriminate E]. rewrite obind_done in E. apply s_getpos_inv in E2. destruct E2 as (a & b & _ & _ & ->).
  cbv zeta in E. destruct (cur_sym _) as [[n s]|]; [|discriminate E]. rewrite obind_done in E. destruct (s_setcomp _ _ _) as [s4|] eqn:E3; [|discriminate E]. rewrite obind_done in E.
  apply s_setcomp_inv in E3. destruct E3 as (x & _ & ->). injection E as <-. reflexivity.
Qed.

Lemma proper_body : forall name prod compr pre sp c id text dim typ uinfo mms body r rbody rd sq post st st2 k s1,
  in_parts z name prod compr pre sp (c :: body ++ [gdxDataWriteDone]) (r :: rbody ++ [rd]) sq post st st2 -> length rbody = length body ->
  raw_start c id text dim typ uinfo mms -> bounds_okb mms = true -> Forall record_call body -> r_code r = 1 -> exec z c sp = Done (r, s1) -> symbols z sp k ->
  Forall (fun kv => inside mms (fst kv) = true) (List.map (cut dim typ) (handed_raw body)) -> StronglySorted lex_lt (List.map fst (List.map (cut dim typ) (handed_raw body))) ->
  forall b1 b2 rb1 rb2 e, body = b1 ++ b2 -> rbody = rb1 ++ rb2 -> length rb1 = length b1 -> errors z s1 e ->
  forall s, run z b1 s1 = Done (rb1, s) -> accepted_raw b1 rb1 = handed_raw b1 /\ errors z s e /\ In (g_mode s) [fw_dom_raw; fw_raw_data].
Proof.
  intros name prod compr pre sp c id text dim typ uinfo mms body r rbody rd sq post st st2 k s1 IP LB RS BO RC C E1 SY IN SS.
  induction b1 as [|c1 b1 IH] using rev_ind; intros b2 rb1 rb2 e EB ER L1 EE s R.
  - destruct rb1; [|discriminate L1]. injection R as <-. split; [reflexivity|]. split; [exact EE|].
    destruct (raw_accept _ _ _ _ _ _ _ _ _ _ RS E1 C) as (_ & M & _). rewrite M. left. reflexivity.
  - destruct (run_split z _ _ _ _ _ R) as (ra & sm & rb & Y1 & Y2 & ->). pose proof (run_length z _ _ _ _ Y1) as LA.
    destruct (run_cons z _ _ _ _ _ Y2) as (r1 & s2 & rs' & X1 & X2 & ->). injection X2 as <- <-.
    assert (EB' : body = b1 ++ c1 :: b2) by (rewrite EB, <- app_assoc; reflexivity).
    assert (ER' : rbody = ra ++ r1 :: rb2) by (rewrite ER, <- app_assoc; reflexivity).
    destruct (IH (c1 :: b2) ra (r1 :: rb2) e EB' ER' LA EE sm Y1) as (A & ES & MM).
    rewrite handed_app, accepted_app, A by exact LA. cbn [handed_raw accepted_raw].
    rewrite EB' in RC. apply Forall_app in RC. destruct RC as [RC1 RC2]. inversion_clear RC2 as [|? ? RC3 RC4].
    destruct c1; try destruct RC3.
    + pose proof IP as IP0. rewrite EB', ER' in IP.
      rewrite EB', handed_app in IN, SS. cbn [handed_raw] in IN, SS. rewrite !map_app in SS. rewrite map_app in IN. cbn [List.map] in IN, SS.
      apply Forall_app in IN. destruct IN as [IN1 IN2]. inversion_clear IN2 as [|? ? IN3 IN4].
      assert (RW : raw_call z sm s2 st2 (k + 1) dim typ (repeat None (Z.to_nat dim)) (List.map (cut dim typ) (handed_raw b1)) keys vals r1).
      { exists name, prod, compr, pre, sp, c, id, text, uinfo, mms, [], b1, (b2 ++ [gdxDataWriteDone]), r, [], ra, (rb2 ++ [rd]), sq, post, st, s1.
        cbn [app]. rewrite <- !app_assoc in IP. cbn [app] in IP. split; [exact IP|]. split; [exact RS|]. split; [exact C|]. split; [exact E1|]. split; [exact Y1|]. split; [exact X1|].
        split; [exact LA|]. split; [eapply Forall_impl; [|exact RC1]; intros x X; destruct (record_within _ X) as (W1 & W2 & _); auto|].
        split; [rewrite Z.add_simpl_r; exact SY|]. split; [left; auto|]. split; [exact BO|]. split; [rewrite A; reflexivity|exact IN1]. }
      assert (FO : follows dim (List.map (cut dim typ) (handed_raw b1)) (firstn (Z.to_nat dim) keys)).
      { right. intros x l EQ. rewrite EQ, map_app in SS. cbn [List.map] in SS. rewrite <- app_assoc in SS. cbn [app cut fst] in SS.
        change (List.map fst l ++ fst x :: firstn (Z.to_nat dim) keys :: List.map fst (List.map (cut dim typ) (handed_raw b2))) with
               (List.map fst l ++ [fst x] ++ [firstn (Z.to_nat dim) keys] ++ List.map fst (List.map (cut dim typ) (handed_raw b2))) in SS.
        rewrite !app_assoc in SS. apply sorted_front in SS. apply sorted_last in SS. apply Forall_app in SS. destruct SS as [_ SS]. inversion SS. assumption. }
      assert (NN : Forall (fun k => 0 <= k) (firstn (Z.to_nat dim) keys)) by (eapply inside_nonneg; [exact BO|exact IN3]).
      destruct (C02_accepted_exactly _ _ _ _ _ _ _ _ _ _ _ _ _ RW NN ES) as [(-> & _ & _ & EF)|(_ & X & _)]; [|exfalso; apply X; split; [apply allowed_none|exact FO]].
      destruct (raw_call_cases _ _ _ _ _ _ _ _ _ _ _ _ RW NN) as [M2 _].
      cbn [r_code ret]. change (1 =? 1) with true. cbv iota. split; [reflexivity|]. split; [exact EF|]. rewrite M2. right. left. reflexivity.
    + rewrite !app_nil_r. split; [reflexivity|]. cbn [exec] in X1. unfold add_set_text in X1. destruct (d_texts _); [|injection X1 as _ <-; auto].
      destruct (sl_add _ _ _ _) as [l' n]. injection X1 as _ <-. split; [|exact MM]. apply errors_iff. apply errors_iff in ES. exact ES.
Qed.
End Z.

(** ** C58: a symbol written in order *)

(** A symbol with a free name, dimension and type in range, whose records are handed over
    within the bounds and in strictly increasing order: every call of the segment answers
    1, no error is counted, and the reader of the file finds exactly these records. *)
Theorem C58_nothing_is_refused : forall z name prod compr pre sp c id text dim typ uinfo mms body r rbody rd sq post st st2 k wt e,
  in_parts z name prod compr pre sp (c :: body ++ [gdxDataWriteDone]) (r :: rbody ++ [rd]) sq post st st2 -> length rbody = length body ->
  raw_start c id text dim typ uinfo mms -> bounds_okb mms = true -> Forall record_call body ->
  ready sp -> acceptable z sp id dim typ -> symbols z sp k -> special_values z sp wt -> errors z sp e ->
  let recs := List.map (cut dim typ) (handed_raw body) in
  Forall (fun kv => inside mms (fst kv) = true) recs -> StronglySorted lex_lt (List.map fst recs) ->
  r = ret 1 /\ rd = ret 1 /\ accepted_raw body rbody = handed_raw body /\ errors z sq e /\
  ready sq /\ symbols z sq (k + 1) /\ symbol z sq (k + 1) id dim typ /\ wrote_raw z st2 (k + 1) dim typ wt recs.
Proof.
  intros z name prod compr pre sp c id text dim typ uinfo mms body r rbody rd sq post st st2 k wt e IP LB RS BO RC RD AC SY SV EE recs IN SS.
  pose proof IP as (rp & rq & _ & R0 & _ & _). destruct (seg_split z _ _ _ _ _ _ _ R0 LB) as (s1 & sd & E1 & R1 & E2).
  destruct (C29_starting_a_symbol z _ _ _ _ _ _ _ _ _ _ _ (raw_starting _ _ _ _ _ _ _ RS) E1 SY EE) as (ST1 & _ & ST2 & _).
  assert (C : r_code r = 1) by (apply ST1; auto). destruct (ST2 C) as (SY1 & SM1).
  destruct (raw_accept z _ _ _ _ _ _ _ _ _ _ RS E1 C) as (RR & _ & TE).
  assert (EE1 : errors z s1 e) by (apply errors_iff; apply errors_iff in EE; congruence).
  destruct (proper_body z _ _ _ _ _ _ _ _ _ _ _ _ _ _ _ _ _ _ _ _ _ _ IP LB RS BO RC C E1 SY IN SS body [] rbody [] e ltac:(rewrite app_nil_r; reflexivity) ltac:(rewrite app_nil_r; reflexivity) LB EE1 sd R1) as (A & ES & M).
  destruct (raw_finish z _ _ _ M E2) as (RDD & MQ & TQ).
  destruct (parts_jinv _ _ _ _ _ _ _ _ _ _ _ _ IP) as (rpre & J0 & WP & JI & FS & _). inversion_clear FS as [|? ? FS1 FS2].
  assert (D : during z (body ++ [gdxDataWriteDone]) s1 sq).
  { split; [|split].
    - apply forallb_forall. intros x I. rewrite Forall_forall in FS2. destruct (FS2 x I) as [K _]. destruct x; try discriminate K; reflexivity.
    - eapply Forall_impl; [|exact FS2]. intros x [_ K]. exact K.
    - exists (rbody ++ [rd]). eapply run_app; [exact R1|]. cbn [run]. rewrite E2. reflexivity. }
  split; [exact RR|]. split; [exact RDD|]. split; [exact A|]. split; [apply errors_iff; apply errors_iff in ES; congruence|]. split; [exact MQ|].
  split; [|split; [eapply C29_symbols_stay; [exact D|exact SM1]|]].
  - eapply C29_only_named_calls_add; [exact D| |exact SY1]. apply Forall_app. split; [|repeat constructor]. eapply Forall_impl; [|exact RC]. intros x X. apply (record_within _ X).
  - exists name, prod, compr, pre, sp, c, id, text, uinfo, mms, body, r, rbody, rd, sq, post, st.
    split; [exact IP|]. split; [exact RS|]. split; [exact C|]. split; [exact LB|]. split; [eapply Forall_impl; [|exact RC]; intros x X; apply (record_within _ X)|].
    split; [rewrite Z.add_simpl_r; exact SY|]. split; [exact SV|]. split; [rewrite A; reflexivity|]. split; [exact BO|exact IN].
Qed.

(** *** A case: a set with element texts and bounds *)

Definition pc_pre : list call := [gdxUELRegisterRawStart; gdxUELRegisterRaw (s2z "a"); gdxUELRegisterRaw (s2z "b"); gdxUELRegisterRaw (s2z "c"); gdxUELRegisterDone].
Definition pc_start : call := gdxDataWriteRawStartKeyBounds (s2z "s") (s2z "a set") 2 dt_set 0 [1; 2] [3; 3].
Definition pc_body : list call :=
  [gdxAddSetText (s2z "first"); gdxDataWriteRaw [1; 3] [dbl_1]; gdxDataWriteRaw [2; 2] [0]; gdxDataWriteRaw [2; 3] [0]; gdxAddSetText (s2z "first"); gdxDataWriteRaw [3; 2] [dbl_1]].
Definition pc_seg : list call := pc_start :: pc_body ++ [gdxDataWriteDone].
Definition pc_post : list call := [gdxDataWriteRawStart (s2z "p") (s2z "") 1 dt_par 0; gdxDataWriteRaw [3] [dbl_1]; gdxDataWriteDone].
Definition pc_0 : gst := state_of (exec rle_zlib (gdxOpenWriteEx (s2z "v.gdx") (s2z "test") 1) (new_object [])).
Definition pc_sp : gst := state_of (run rle_zlib pc_pre pc_0).
Definition pc_sq : gst := state_of (run rle_zlib pc_seg pc_sp).
Definition pc_st : gst := state_of (run rle_zlib pc_post pc_sq).
Definition pc_closed : gst := state_of (exec rle_zlib gdxClose pc_st).
Definition pc_read : gst := state_of (exec rle_zlib (gdxOpenReadEx (s2z "v.gdx") 0) pc_closed).
Definition pc_rpre : list resp := answer_of (run rle_zlib pc_pre pc_0).
Definition pc_rseg : list resp := answer_of (run rle_zlib pc_seg pc_sp).
Definition pc_rbody : list resp := removelast (tl pc_rseg).
Definition pc_rpost : list resp := answer_of (run rle_zlib pc_post pc_sq).
Definition pc_file : list Z := match disk_get (e_disk (g_env pc_closed)) (s2z "v.gdx") with Some F => F | None => [] end.
Lemma pc_parts : in_parts rle_zlib (s2z "v.gdx") (s2z "test") 1 pc_pre pc_sp pc_seg pc_rseg pc_sq pc_post pc_st pc_read.
Proof.
  exists pc_rpre, pc_rpost. split.
  { apply writes_made. exists (new_object []), pc_0, (ret_i 1 [0]). split; [vm_compute; reflexivity|]. split; [reflexivity|]. split; [apply str_okb_ok; vm_compute; reflexivity|].
    split; [apply calls_okb_ok; vm_compute; reflexivity|]. vm_compute. reflexivity. }
  split; [vm_compute; reflexivity|]. split; [vm_compute; reflexivity|]. split.
  { apply writes_made. exists (new_object []), pc_0, (ret_i 1 [0]). split; [vm_compute; reflexivity|]. split; [reflexivity|]. split; [apply str_okb_ok; vm_compute; reflexivity|].
    split; [apply calls_okb_ok; vm_compute; reflexivity|]. vm_compute. reflexivity. }
  split; [vm_compute; reflexivity|]. exists (ret 0), pc_closed, pc_file, pc_closed, 0.
  split; [vm_compute; reflexivity|]. split; [vm_compute; reflexivity|]. split; [apply counters_fit_test; vm_compute; reflexivity|].
  split; [vm_compute; reflexivity|]. split; [split; vm_compute; reflexivity|]. split; [vm_compute; reflexivity|]. split; [reflexivity|].
  vm_compute. reflexivity.
Qed.
Lemma pc_free : acceptable rle_zlib pc_sp (s2z "s") 2 dt_set.
Proof.
  split; [|split; [intros nm []|split; [|split; vm_compute; intuition discriminate]]].
  - intros n nm d t X. exfalso. apply symbol_iff in X. destruct X as (s & X & _). apply znth_In in X. vm_compute in X. exact X.
  - apply good_ident_spec. vm_compute. reflexivity.
Qed.
Example C58_case : exists r rbody rd, pc_rseg = r :: rbody ++ [rd] /\ accepted_raw pc_body rbody = handed_raw pc_body /\
  wrote_raw rle_zlib pc_read 1 2 dt_set standard_values [([1; 3], [dbl_1]); ([2; 2], [0]); ([2; 3], [0]); ([3; 2], [dbl_1])].
Proof.
  exists (ret 1), pc_rbody, (ret 1). split; [vm_compute; reflexivity|].
  assert (X : pc_rseg = ret 1 :: pc_rbody ++ [ret 1]) by (vm_compute; reflexivity). pose proof pc_parts as P. rewrite X in P.
  destruct (C58_nothing_is_refused _ _ _ _ _ _ _ (s2z "s") (s2z "a set") 2 dt_set 0 [(1, 3); (2, 3)] pc_body _ pc_rbody _ _ _ _ _ 0 standard_values 0 P) as (_ & _ & A & _ & _ & _ & _ & B).
  - vm_compute. reflexivity.
  - exact (RS_bounds (s2z "s") (s2z "a set") 2 dt_set 0 [1; 2] [3; 3]).
  - reflexivity.
  - repeat constructor.
  - vm_compute. reflexivity.
  - exact pc_free.
  - eexists. ans.
  - ans.
  - ans.
  - repeat constructor.
  - cbn. repeat (constructor; [|repeat (constructor; [apply key_diff_neg; [reflexivity|vm_compute; reflexivity]|]); constructor]). constructor.
  - split; [exact A|exact B].
Qed.

(** ** Symbols written with labels and with user numbers *)

(** The records that are handed over by label. *)
Fixpoint handed_str (cs : list call) : list (list str * list Z) :=
  match cs with
  | [] => []
  | gdxDataWriteStr keys vals :: cs' => (keys, vals) :: handed_str cs'
  | _ :: cs' => handed_str cs'
  end.
Definition cut_str (dim typ : Z) (kv : list str * list Z) : list str * list Z := (firstn (Z.to_nat dim) (fst kv), firstn (values_per typ) (snd kv)).
Definition str_record_call (c : call) : Prop := match c with gdxDataWriteStr _ _ | gdxAddSetText _ => True | _ => False end.
(** Labels are the same if they differ at most in letter case and trailing blanks. *)
Definition spelled (kv : list str * list Z) : list str := List.map (fun s => upper (trim_right s)) (fst kv).
(** The records that are handed over by user number. *)
Fixpoint handed_map (cs : list call) : list (list Z * list Z) :=
  match cs with
  | [] => []
  | gdxDataWriteMap keys vals :: cs' => (keys, vals) :: handed_map cs'
  | _ :: cs' => handed_map cs'
  end.
Definition map_record_call (c : call) : Prop := match c with gdxDataWriteMap _ _ | gdxAddSetText _ => True | _ => False end.

Lemma once_all : forall dim items recs, sorted_once dim items recs -> NoDup (List.map fst items) -> Permutation items recs.
Proof.
  intros dim items recs [S0 S1] ND. destruct (Z.eq_dec dim 0) as [D|D]; [rewrite (S0 D); apply Permutation_refl|]. destruct (S1 D) as [SS SI].
  apply NoDup_Permutation.
  - eapply NoDup_map_inv. exact ND.
  - apply (NoDup_map_inv fst). clear - SS. induction SS as [|k l SS IH F]; [constructor|]. constructor; [|exact IH]. intros X. rewrite Forall_forall in F. exact (lex_lt_irrefl _ (F _ X)).
  - intros [k v]. rewrite SI. split.
    + intros X. apply in_split in X. destruct X as (a & b & ->). exists a, b. split; [reflexivity|]. rewrite map_app in ND. cbn [List.map fst] in ND. apply NoDup_remove_2 in ND. intros Y. apply ND. apply in_or_app. auto.
    + intros (a & b & -> & _). apply in_or_app. right. left. reflexivity.
Qed.
Lemma in_no_domains : forall n items, in_domains (repeat None n) items = items.
Proof. intros n items. unfold in_domains. induction items as [|it items IH]; [reflexivity|]. cbn [filter]. rewrite allowed_none, IH. reflexivity. Qed.
Lemma once_sorted : forall dim items recs, sorted_once dim items recs -> NoDup (List.map fst items) -> (dim = 0 -> Forall (fun it => fst it = []) items) -> StronglySorted lex_lt (List.map fst recs).
Proof.
  intros dim items recs [S0 S1] ND K. destruct (Z.eq_dec dim 0) as [D|D]; [|apply (S1 D)]. rewrite (S0 D). specialize (K D). destruct items as [|a [|b l]]; [constructor|repeat constructor|exfalso].
  inversion K as [|? ? K1 K2]. inversion K2 as [|? ? K3 K4]. cbn [List.map] in ND. inversion ND as [|? ? N1 N2]. apply N1. left. congruence.
Qed.

Section Y.
Context (z : zlib).

Lemma str_keys_good : forall keys i st ok st', Forall (fun s => well_formed (trim_right s)) keys -> str_keys keys i st = Done (ok, st') ->
  ok = true /\ g_mode st' = g_mode st /\ g_err st' = g_err st /\ w_dim (g_wrk st') = w_dim (g_wrk st).
Proof.
  induction keys as [|s keys IH]; intros i st ok st' F H; cbn [str_keys] in H; [injection H as <- <-; auto|]. cbv zeta in H. inversion_clear F as [|? ? F1 F2].
  destruct (nth_error (w_lstr _) i) as [c|]; [|discriminate H]. destruct (nth_error (w_last _) i) as [l|]; [|discriminate H]. destruct (nth_error (w_mms _) i) as [mm|]; [|discriminate H].
  destruct (str_key s c l mm (g_dic st)) as [x|] eqn:E; [|discriminate H]. rewrite obind_done in H.
  destruct x as [[[[c' n] mm'] d']|].
  - destruct (IH _ _ _ _ F2 H) as (A1 & A2 & A3 & A4). split; [exact A1|]. split; [exact A2|]. split; [exact A3|exact A4].
  - exfalso. unfold str_key in E. destruct (trim_store s) as [t|] eqn:T; [|discriminate E]. rewrite obind_done in E. apply trim_stored in T. subst t. apply well_formed_iff in F1.
    destruct (_ && _); [discriminate E|]. cbv zeta in E. destruct (_ =? -1); [|discriminate E]. rewrite F1 in E. destruct (uel_add _ _) as [a b]. discriminate E.
Qed.
Lemma write_str_good : forall keys vals st r st', In (g_mode st) str_modes -> Forall (fun s => well_formed (trim_right s)) (firstn (w_dim (g_wrk st)) keys) -> write_str keys vals st = Done (r, st') ->
  r = ret 1 /\ In (g_mode st') str_modes /\ g_err st' = g_err st /\ w_dim (g_wrk st') = w_dim (g_wrk st).
Proof.
  intros keys vals st r st' M F H. unfold write_str in H. cbv zeta in H.
  assert (X : g_mode (enter fw_dom_str fw_str_data st) = fw_str_data /\ g_err (enter fw_dom_str fw_str_data st) = g_err st /\ g_wrk (enter fw_dom_str fw_str_data st) = g_wrk st).
  { unfold enter. destruct M as [M|[M|[]]]; rewrite <- M; cbn; auto. }
  destruct X as (X1 & X2 & X3). set (s0 := enter fw_dom_str fw_str_data st) in *. unfold checked in H. rewrite X1 in H. change (mode_in fw_str_data [fw_str_data]) with true in H. cbv iota in H.
  destruct (_ || _); [discriminate H|]. rewrite X3 in H.
  destruct (str_keys _ 0 s0) as [[ok s1]|] eqn:E; [|discriminate H]. rewrite obind_done in H. destruct (str_keys_good _ _ _ _ _ F E) as (-> & A2 & A3 & A4).
  unfold add_item in H. destruct (w_sort _); [|discriminate H]. rewrite obind_done in H. unfold okay in H. injection H as <- <-.
  split; [reflexivity|]. split; [|split].
  - change (g_mode (upd_wrk _ s1)) with (g_mode s1). rewrite A2, X1. right. left. reflexivity.
  - change (g_err (upd_wrk _ s1)) with (g_err s1). congruence.
  - unfold upd_wrk. cbn. congruence.
Qed.
Lemma map_keys_good : forall m keys mms, Forall (fun k => 0 <= im_get m k) keys -> exists ks mms', ApiWrite.map_keys m keys mms = (Some ks, mms').
Proof.
  intros m. induction keys as [|k keys IH]; intros mms F; [destruct mms; cbn; eauto|]. inversion_clear F as [|? ? F1 F2]. destruct mms as [|mm mms]; [cbn; eauto|]. cbn [ApiWrite.map_keys]. cbv zeta.
  destruct (Z.ltb_spec (im_get m k) 0); [lia|]. destruct (IH mms F2) as (ks & mms' & ->). cbn [option_map]. eauto.
Qed.
Lemma write_map_good : forall keys vals st r st', In (g_mode st) map_modes -> Forall (fun k => 0 <= im_get (d_usr (g_dic st)) k) (firstn (w_dim (g_wrk st)) keys) -> write_map keys vals st = Done (r, st') ->
  r = ret 1 /\ In (g_mode st') map_modes /\ g_err st' = g_err st /\ w_dim (g_wrk st') = w_dim (g_wrk st) /\ g_dic st' = g_dic st.
Proof.
  intros keys vals st r st' M F H. unfold write_map in H. cbv zeta in H.
  assert (X : g_mode (enter fw_dom_map fw_map_data st) = fw_map_data /\ g_err (enter fw_dom_map fw_map_data st) = g_err st /\ g_wrk (enter fw_dom_map fw_map_data st) = g_wrk st /\ g_dic (enter fw_dom_map fw_map_data st) = g_dic st).
  { unfold enter. destruct M as [M|[M|[]]]; rewrite <- M; cbn; auto. }
  destruct X as (X1 & X2 & X3 & X4). set (s0 := enter fw_dom_map fw_map_data st) in *. unfold checked in H. rewrite X1 in H. change (mode_in fw_map_data [fw_map_data]) with true in H. cbv iota in H.
  destruct (_ || _); [discriminate H|]. rewrite X3, X4 in H. destruct (map_keys_good _ _ (w_mms (g_wrk st)) F) as (ks & mms' & E). rewrite E in H.
  unfold add_item in H. destruct (w_sort _); [|discriminate H]. rewrite obind_done in H. unfold okay in H. injection H as <- <-.
  split; [reflexivity|]. split; [|split; [|split]].
  - change (In (g_mode s0) map_modes). rewrite X1. right. left. reflexivity.
  - exact X2.
  - unfold upd_wrk. cbn. congruence.
  - exact X4.
Qed.
Lemma text_good : forall s st r st', exec z (gdxAddSetText s) st = Done (r, st') -> g_mode st' = g_mode st /\ r_tot (g_err st') = r_tot (g_err st) /\ g_wrk st' = g_wrk st /\ d_usr (g_dic st') = d_usr (g_dic st).
Proof.
  intros s st r st' H. cbn [exec] in H. unfold add_set_text in H. destruct (d_texts _); [|injection H as _ <-; auto]. destruct (sl_add _ _ _ _) as [l' n]. injection H as _ <-. repeat split.
Qed.
Lemma prepare_dim : forall name text dim typ uinfo st st', prepare_symbol_write z name text dim typ uinfo st = Done (true, st') -> w_dim (g_wrk st') = Z.to_nat dim /\ d_usr (g_dic st') = d_usr (g_dic st).
Proof.
  intros name text dim typ uinfo st st' H. unfold prepare_symbol_write in H. cbv zeta in H.
  destruct (mode_in _ _); cbn [negb] in H; [|discriminate H].
  unfold good_new_symbol in H. destruct (1 <=? _); [discriminate H|]. destruct (0 <=? acro_named _ _); [discriminate H|]. destruct (good_ident name); [|discriminate H].
  cbn [negb] in H. destruct ((0 <=? dim) && (dim <=? 20)); cbn [negb] in H; [|discriminate H].
  destruct ((0 <=? typ) && (typ <=? dt_equ)); cbn [negb] in H; [|discriminate H].
  unfold s_setcomp in H. destruct (f_strm _) as [s0|]; [|discriminate H]. rewrite obind_done in H. injection H as <-. split; reflexivity.
Qed.
Lemma str_accept : forall id text dim typ uinfo st r st', exec z (gdxDataWriteStrStart id text dim typ uinfo) st = Done (r, st') -> r_code r = 1 ->
  r = ret 1 /\ In (g_mode st') str_modes /\ r_tot (g_err st') = r_tot (g_err st) /\ w_dim (g_wrk st') = Z.to_nat dim.
Proof.
  intros id text dim typ uinfo st r st' H C. change (write_str_start z id text dim typ uinfo st = Done (r, st')) in H. unfold write_str_start in H.
  destruct (prepare_symbol_write _ _ _ _ _ _ _) as [[ok s1]|] eqn:E; [|discriminate H]. rewrite obind_done in H. destruct ok; cbn [negb] in H; [|injection H as <- _; discriminate C].
  unfold okay in H. injection H as <- <-. split; [reflexivity|]. split; [left; reflexivity|]. split; [exact (prepare_err _ _ _ _ _ _ _ _ E)|exact (proj1 (prepare_dim _ _ _ _ _ _ _ E))].
Qed.
Lemma map_accept : forall id text dim typ uinfo st r st', exec z (gdxDataWriteMapStart id text dim typ uinfo) st = Done (r, st') -> r_code r = 1 ->
  r = ret 1 /\ In (g_mode st') map_modes /\ r_tot (g_err st') = r_tot (g_err st) /\ w_dim (g_wrk st') = Z.to_nat dim /\ d_usr (g_dic st') = d_usr (g_dic st).
Proof.
  intros id text dim typ uinfo st r st' H C. change (write_map_start z id text dim typ uinfo st = Done (r, st')) in H. unfold write_map_start in H.
  destruct (prepare_symbol_write _ _ _ _ _ _ _) as [[ok s1]|] eqn:E; [|discriminate H]. rewrite obind_done in H. destruct ok; cbn [negb] in H; [|injection H as <- _; discriminate C].
  unfold okay in H. injection H as <- <-. split; [reflexivity|]. split; [left; reflexivity|]. split; [exact (prepare_err _ _ _ _ _ _ _ _ E)|exact (prepare_dim _ _ _ _ _ _ _ E)].
Qed.
Lemma buf_done : forall st r st', In (g_mode st) (str_modes ++ map_modes) -> exec z gdxDataWriteDone st = Done (r, st') -> r = ret 1 /\ g_mode st' = fw_init.
Proof.
  intros st r st' M H. change (data_write_done z st = Done (r, st')) in H. unfold data_write_done, checked in H.
  assert (MI : mode_in (g_mode st) [fw_raw_data; fw_map_data; fw_str_data; fw_dom_raw; fw_dom_map; fw_dom_str] = true) by (destruct M as [<-|[<-|[<-|[<-|[]]]]]; reflexivity). rewrite MI in H.
  destruct (write_done z st) as [s1|] eqn:E; [|discriminate H]. rewrite obind_done in H. unfold okay in H. injection H as <- <-. split; [reflexivity|]. eapply write_done_mode; exact E.
Qed.

Lemma str_all : forall body st rbody sd n, Forall str_record_call body -> Forall (fun kv => Forall (fun s => well_formed (trim_right s)) (firstn n (fst kv))) (handed_str body) ->
  In (g_mode st) str_modes -> w_dim (g_wrk st) = n -> run z body st = Done (rbody, sd) ->
  accepted_str body rbody = handed_str body /\ In (g_mode sd) str_modes /\ r_tot (g_err sd) = r_tot (g_err st).
Proof.
  induction body as [|c body IH]; intros st rbody sd n RC WF M W R; [injection R as <- <-; auto|]. destruct (run_cons z _ _ _ _ _ R) as (r & s1 & rs' & E & R' & ->).
  inversion_clear RC as [|? ? RC1 RC2]. destruct c; try destruct RC1; cbn [handed_str accepted_str] in *.
  - inversion_clear WF as [|? ? WF1 WF2]. cbn [fst] in WF1. change (write_str keys vals st = Done (r, s1)) in E. rewrite <- W in WF1.
    destruct (write_str_good _ _ _ _ _ M WF1 E) as (-> & A2 & A3 & A4). destruct (IH _ _ _ n RC2 WF2 A2 ltac:(congruence) R') as (B1 & B2 & B3).
    cbn [r_code ret]. change (1 =? 1) with true. cbv iota. rewrite B1. split; [reflexivity|]. split; [exact B2|]. congruence.
  - destruct (text_good _ _ _ _ E) as (A1 & A2 & A3 & _). destruct (IH _ _ _ n RC2 WF ltac:(rewrite A1; exact M) ltac:(congruence) R') as (B1 & B2 & B3).
    cbn [app]. split; [exact B1|]. split; [exact B2|congruence].
Qed.
Lemma map_all : forall body st rbody sd n, Forall map_record_call body -> Forall (fun kv => Forall (fun k => 0 <= im_get (d_usr (g_dic st)) k) (firstn n (fst kv))) (handed_map body) ->
  In (g_mode st) map_modes -> w_dim (g_wrk st) = n -> run z body st = Done (rbody, sd) ->
  accepted_map body rbody = handed_map body /\ In (g_mode sd) map_modes /\ r_tot (g_err sd) = r_tot (g_err st).
Proof.
  induction body as [|c body IH]; intros st rbody sd n RC WF M W R; [injection R as <- <-; auto|]. destruct (run_cons z _ _ _ _ _ R) as (r & s1 & rs' & E & R' & ->).
  inversion_clear RC as [|? ? RC1 RC2]. destruct c; try destruct RC1; cbn [handed_map accepted_map] in *.
  - inversion_clear WF as [|? ? WF1 WF2]. cbn [fst] in WF1. change (write_map keys vals st = Done (r, s1)) in E. rewrite <- W in WF1.
    destruct (write_map_good _ _ _ _ _ M WF1 E) as (-> & A2 & A3 & A4 & A5). destruct (IH _ _ _ n RC2 ltac:(rewrite A5; exact WF2) A2 ltac:(congruence) R') as (B1 & B2 & B3).
    cbn [r_code ret]. change (1 =? 1) with true. cbv iota. rewrite B1. split; [reflexivity|]. split; [exact B2|]. congruence.
  - destruct (text_good _ _ _ _ E) as (A1 & A2 & A3 & A4). destruct (IH _ _ _ n RC2 ltac:(rewrite A4; exact WF) ltac:(rewrite A1; exact M) ltac:(congruence) R') as (B1 & B2 & B3).
    cbn [app]. split; [exact B1|]. split; [exact B2|congruence].
Qed.

Lemma same_number : forall name prod compr cs rs st st2 s s' k, reopened z name prod compr cs rs st st2 -> label_found z st2 s k -> label_found z st2 s' k -> upper (trim_right s) = upper (trim_right s').
Proof.
  intros name prod compr cs rs st st2 s s' k RO L1 L2. pose proof RO as (WST & _). destruct (writes_labels _ _ _ _ _ _ _ WST) as (LST & _ & UST).
  destruct (C20_labels_are_found_again _ _ _ _ _ _ _ _ RO) as [_ B]. apply B in L1. apply B in L2. apply label_found_spec in L1; [|assumption..]. apply label_found_spec in L2; [|assumption..].
  apply found_iff in L1. destruct L1 as [L1 _]. apply found_iff in L2. destruct L2 as [L2 _]. apply sl_find_Some in L1. destruct L1 as (e & E1 & E2). apply sl_find_Some in L2. destruct L2 as (e' & E3 & E4).
  rewrite E1 in E3. injection E3 as <-. apply same_text_spec in E2. apply same_text_spec in E4. transitivity (upper (fst e)); [symmetry; exact E2|exact E4].
Qed.
Lemma items_distinct : forall name prod compr cs rs st st2 handed items, reopened z name prod compr cs rs st st2 -> Forall2 (numbered_by z st2) handed items -> NoDup (List.map spelled handed) -> NoDup (List.map fst items).
Proof.
  intros name prod compr cs rs st st2 handed items RO F. induction F as [|h it handed items [N1 N2] F IH]; intros ND; [constructor|]. cbn [List.map] in *. inversion_clear ND as [|? ? ND1 ND2].
  constructor; [|apply IH; exact ND2]. intros X. apply ND1. apply in_map_iff in X. destruct X as (it' & X1 & X2). clear IH ND1 ND2.
  induction F as [|h' it2 handed items [M1 M2] F IH]; [destruct X2|]. destruct X2 as [->|X2]; [left|right; apply IH; exact X2].
  unfold spelled. rewrite X1 in M1. clear - RO N1 M1. revert M1. generalize (fst h'). induction N1 as [|s k ss ks N NN IH]; intros ss' M; inversion M as [|s' ? ss2 ? M1 M2]; [reflexivity|]. subst. cbn [List.map]. f_equal; [|apply IH; exact M2].
  eapply same_number; eassumption.
Qed.
End Y.

(** *** C58 with labels *)

(** Well-formed labels, no tuple twice: every call of the segment answers 1, no error is
    counted, and the reader finds each record once, under the numbers of its labels, in
    increasing order. *)
Theorem C58_labels : forall z name prod compr pre sp id text dim typ uinfo body r rbody rd sq post st st2 k wt e,
  in_parts z name prod compr pre sp (gdxDataWriteStrStart id text dim typ uinfo :: body ++ [gdxDataWriteDone]) (r :: rbody ++ [rd]) sq post st st2 -> length rbody = length body ->
  Forall str_record_call body -> no_rename post ->
  ready sp -> acceptable z sp id dim typ -> symbols z sp k -> special_values z sp wt -> errors z sp e ->
  let handed := List.map (cut_str dim typ) (handed_str body) in
  Forall (fun kv => Forall (fun s => well_formed (trim_right s)) (fst kv)) handed -> NoDup (List.map spelled handed) ->
  r = ret 1 /\ rd = ret 1 /\ accepted_str body rbody = handed_str body /\ errors z sq e /\
  ready sq /\ symbols z sq (k + 1) /\ symbol z sq (k + 1) id dim typ /\
  exists items recs, Forall2 (numbered_by z st2) handed items /\ Permutation items recs /\ StronglySorted lex_lt (List.map fst recs) /\ wrote z st2 (k + 1) dim typ wt recs.
Proof.
  intros z name prod compr pre sp id text dim typ uinfo body r rbody rd sq post st st2 k wt e IP LB RC NR RD AC SY SV EE handed WF ND.
  pose proof IP as (rp & rq & _ & R0 & _ & RO). destruct (seg_split z _ _ _ _ _ _ _ R0 LB) as (s1 & sd & E1 & R1 & E2).
  assert (STT : starting (gdxDataWriteStrStart id text dim typ uinfo) id text dim typ uinfo) by (unfold starting; auto 6).
  destruct (C29_starting_a_symbol z _ _ _ _ _ _ _ _ _ _ _ STT E1 SY EE) as (ST1 & _ & ST2 & _).
  assert (C : r_code r = 1) by (apply ST1; auto). destruct (ST2 C) as (SY1 & SM1).
  destruct (str_accept z _ _ _ _ _ _ _ _ E1 C) as (RR & M1 & TE & WD).
  assert (WF' : Forall (fun kv => Forall (fun s => well_formed (trim_right s)) (firstn (Z.to_nat dim) (fst kv))) (handed_str body)) by (unfold handed in WF; rewrite Forall_map in WF; exact WF).
  destruct (str_all z _ _ _ _ _ RC WF' M1 WD R1) as (A & M & TS).
  destruct (buf_done z _ _ _ ltac:(apply in_or_app; left; exact M) E2) as (RDD & MQ).
  destruct (parts_jinv _ _ _ _ _ _ _ _ _ _ _ _ IP) as (rpre & J0 & WP & JI & FS & _). inversion_clear FS as [|? ? FS1 FS2].
  assert (D : during z (body ++ [gdxDataWriteDone]) s1 sq).
  { split; [|split].
    - apply forallb_forall. intros x I. rewrite Forall_forall in FS2. destruct (FS2 x I) as [K _]. destruct x; try discriminate K; reflexivity.
    - eapply Forall_impl; [|exact FS2]. intros x [_ K]. exact K.
    - exists (rbody ++ [rd]). eapply run_app; [exact R1|]. cbn [run]. rewrite E2. reflexivity. }
  assert (W : str_written z sd sq st2 (k + 1) dim typ wt (repeat None (Z.to_nat dim)) handed).
  { exists name, prod, compr, pre, sp, id, text, uinfo, [], body, r, [], rbody, rd, post, st, s1. cbn [app].
    split; [exact IP|]. split; [exact E1|]. split; [exact R1|]. split; [exact C|]. split; [exact LB|].
    split; [eapply Forall_impl; [|exact RC]; intros x X; destruct x; try destruct X; split; reflexivity|].
    split; [apply Forall_app; split; [eapply Forall_impl; [|exact RC]; intros x X; destruct x; try destruct X; reflexivity|exact NR]|].
    split; [rewrite Z.add_simpl_r; exact SY|]. split; [exact SV|]. split; [left; auto|]. rewrite A. reflexivity. }
  destruct (str_holds _ _ _ _ _ _ _ _ _ _ W) as (items & recs & NB & SO & _).
  pose proof (items_distinct _ _ _ _ _ _ _ _ _ _ RO NB ND) as NI.
  assert (SO' : sorted_once dim items recs) by (rewrite <- (in_no_domains (Z.to_nat dim) items); exact SO).
  pose proof (once_all _ _ _ SO' NI) as PE.
  assert (EQ : errors z sq (e + (zlen handed - zlen recs))) by (eapply C08_refused_are_counted; [exact W|exact NB|exact SO|apply errors_iff; apply errors_iff in EE; congruence]).
  replace (e + (zlen handed - zlen recs)) with e in EQ by (apply Permutation_length in PE; apply Forall2_length in NB; unfold zlen; lia).
  split; [exact RR|]. split; [exact RDD|]. split; [exact A|]. split; [exact EQ|]. split; [exact MQ|].
  split; [|split; [eapply C29_symbols_stay; [exact D|exact SM1]|]].
  - eapply C29_only_named_calls_add; [exact D| |exact SY1]. apply Forall_app. split; [|repeat constructor]. eapply Forall_impl; [|exact RC]. intros x X. destruct x; try destruct X; reflexivity.
  - exists items, recs. split; [exact NB|]. split; [exact PE|]. split.
    + eapply once_sorted; [exact SO'|exact NI|]. intros D0. subst dim. clear - NB. unfold handed in NB. remember (List.map (cut_str 0 typ) (handed_str body)) as h eqn:Eh. revert Eh. generalize (handed_str body).
      induction NB as [|x y h items [N1 _] NB IH]; intros l Eh; [constructor|]. destruct l as [|a l]; [discriminate Eh|]. injection Eh as Ea Eb. constructor; [|eapply IH; exact Eb]. subst x. cbn in N1. inversion N1. reflexivity.
    + exists st2. split; [|constructor]. right. left. exists sd, sq, (repeat None (Z.to_nat dim)), handed, items. auto.
Qed.

(** *** C58 with user numbers *)

(** The same for records that are handed over by user number, if each of these numbers
    stands for a label and no tuple of labels comes twice. *)
Theorem C58_user_numbers : forall z name prod compr pre sp id text dim typ uinfo body r rbody rd sq post st st2 k wt e items,
  in_parts z name prod compr pre sp (gdxDataWriteMapStart id text dim typ uinfo :: body ++ [gdxDataWriteDone]) (r :: rbody ++ [rd]) sq post st st2 -> length rbody = length body ->
  Forall map_record_call body ->
  ready sp -> acceptable z sp id dim typ -> symbols z sp k -> special_values z sp wt -> errors z sp e ->
  let handed := List.map (cut dim typ) (handed_map body) in
  Forall2 (user_numbered z sp) handed items -> NoDup (List.map fst items) ->
  r = ret 1 /\ rd = ret 1 /\ accepted_map body rbody = handed_map body /\ errors z sq e /\
  ready sq /\ symbols z sq (k + 1) /\ symbol z sq (k + 1) id dim typ /\
  exists recs, Permutation items recs /\ StronglySorted lex_lt (List.map fst recs) /\ wrote z st2 (k + 1) dim typ wt recs.
Proof.
  intros z name prod compr pre sp id text dim typ uinfo body r rbody rd sq post st st2 k wt e items IP LB RC RD AC SY SV EE handed UN ND.
  pose proof IP as (rp & rq & WR0 & R0 & _ & RO). destruct (seg_split z _ _ _ _ _ _ _ R0 LB) as (s1 & sd & E1 & R1 & E2).
  assert (STT : starting (gdxDataWriteMapStart id text dim typ uinfo) id text dim typ uinfo) by (unfold starting; auto 6).
  destruct (C29_starting_a_symbol z _ _ _ _ _ _ _ _ _ _ _ STT E1 SY EE) as (ST1 & _ & ST2 & _).
  assert (C : r_code r = 1) by (apply ST1; auto). destruct (ST2 C) as (SY1 & SM1).
  destruct (map_accept z _ _ _ _ _ _ _ _ E1 C) as (RR & M1 & TE & WD & DU).
  assert (WF' : Forall (fun kv => Forall (fun k => 0 <= im_get (d_usr (g_dic s1)) k) (firstn (Z.to_nat dim) (fst kv))) (handed_map body)).
  { rewrite DU. unfold handed in UN. clear - UN. revert items UN. induction (handed_map body) as [|kv l IH]; intros items UN; [constructor|]. inversion UN as [|? it ? items' [U1 _] U2]. subst. constructor; [|eapply IH; exact U2].
    cbn [cut fst] in U1. clear - U1. induction U1 as [|u k us ks U U1 IH]; [constructor|]. constructor; [|exact IH]. destruct U as (t & AN & _).
    destruct AN as (s' & AN). change (get_uel u sp = Done (ret_s 1 [t], s')) in AN. unfold get_uel in AN. cbv zeta in AN. destruct (negb _); [discriminate AN|].
    destruct (Z.leb_spec 1 (im_get (d_usr (g_dic sp)) u)); [lia|discriminate AN]. }
  destruct (map_all z _ _ _ _ _ RC WF' M1 WD R1) as (A & M & TS).
  destruct (buf_done z _ _ _ ltac:(apply in_or_app; right; exact M) E2) as (RDD & MQ).
  destruct (parts_jinv _ _ _ _ _ _ _ _ _ _ _ _ IP) as (rpre & J0 & WP & JI & FS & _). inversion_clear FS as [|? ? FS1 FS2].
  assert (D : during z (body ++ [gdxDataWriteDone]) s1 sq).
  { split; [|split].
    - apply forallb_forall. intros x I. rewrite Forall_forall in FS2. destruct (FS2 x I) as [K _]. destruct x; try discriminate K; reflexivity.
    - eapply Forall_impl; [|exact FS2]. intros x [_ K]. exact K.
    - exists (rbody ++ [rd]). eapply run_app; [exact R1|]. cbn [run]. rewrite E2. reflexivity. }
  assert (W : map_written z sp sd sq st2 (k + 1) dim typ wt (repeat None (Z.to_nat dim)) handed).
  { exists name, prod, compr, pre, id, text, uinfo, [], body, r, [], rbody, rd, post, st, s1. cbn [app].
    split; [exact IP|]. split; [exact E1|]. split; [exact R1|]. split; [exact C|]. split; [exact LB|].
    split; [eapply Forall_impl; [|exact RC]; intros x X; destruct x; try destruct X; split; reflexivity|].
    split; [rewrite Z.add_simpl_r; exact SY|]. split; [exact SV|]. split; [left; auto|]. rewrite A. reflexivity. }
  destruct (map_holds _ _ _ _ _ _ _ _ _ _ _ W) as (items' & recs & NB & SO & _).
  destruct (map_settled _ _ _ _ _ _ _ _ _ _ _ W) as (items2 & NB2 & SE).
  assert (FUN : forall a b, Forall2 (user_numbered z sp) handed a -> Forall2 (user_numbered z sp) handed b -> a = b) by (intros a b X Y; exact (Forall2_fun _ _ _ _ (user_numbered_fun z sp) X Y)).
  pose proof (FUN _ _ UN NB) as <-. pose proof (FUN _ _ UN NB2) as <-. clear FUN.
  assert (SO' : sorted_once dim items recs) by (rewrite <- (in_no_domains (Z.to_nat dim) items); exact SO).
  pose proof (once_all _ _ _ SO' ND) as PE.
  assert (EQ : errors z sq (e + (zlen items - zlen recs))) by (eapply settled_count; [exact SE|exact SO|apply errors_iff; apply errors_iff in EE; congruence]).
  replace (e + (zlen items - zlen recs)) with e in EQ by (apply Permutation_length in PE; unfold zlen; lia).
  split; [exact RR|]. split; [exact RDD|]. split; [exact A|]. split; [exact EQ|]. split; [exact MQ|].
  split; [|split; [eapply C29_symbols_stay; [exact D|exact SM1]|]].
  - eapply C29_only_named_calls_add; [exact D| |exact SY1]. apply Forall_app. split; [|repeat constructor]. eapply Forall_impl; [|exact RC]. intros x X. destruct x; try destruct X; reflexivity.
  - exists recs. split; [exact PE|]. split.
    + eapply once_sorted; [exact SO'|exact ND|]. intros D0. subst dim. clear - NB. unfold handed in NB. remember (List.map (cut 0 typ) (handed_map body)) as h eqn:Eh. revert Eh. generalize (handed_map body).
      induction NB as [|x y h items [N1 _] NB IH]; intros l Eh; [constructor|]. destruct l as [|a l]; [discriminate Eh|]. injection Eh as Ea Eb. constructor; [|eapply IH; exact Eb]. subst x. cbn in N1. inversion N1. reflexivity.
    + exists st2. split; [|constructor]. right. right. exists sp, sd, sq, (repeat None (Z.to_nat dim)), handed, items. auto.
Qed.

(** *** Cases: the same set by label, and by user number, out of order *)

Definition ps_pre : list call := [gdxUELRegisterRawStart; gdxUELRegisterRaw (s2z "c"); gdxUELRegisterDone].
Definition ps_start : call := gdxDataWriteStrStart (s2z "s") (s2z "a set") 2 dt_set 0.
Definition ps_body : list call := [gdxDataWriteStr [s2z "c"; s2z "b"] [0]; gdxAddSetText (s2z "first"); gdxDataWriteStr [s2z "A "; s2z "c"] [dbl_1]; gdxDataWriteStr [s2z "a"; s2z "b"] [0]].
Definition ps_seg : list call := ps_start :: ps_body ++ [gdxDataWriteDone].
Definition ps_post : list call := [gdxDataWriteStrStart (s2z "p") (s2z "") 1 dt_par 0; gdxDataWriteStr [s2z "c"] [dbl_1]; gdxDataWriteDone].
Definition ps_sp : gst := state_of (run rle_zlib ps_pre pc_0).
Definition ps_sq : gst := state_of (run rle_zlib ps_seg ps_sp).
Definition ps_st : gst := state_of (run rle_zlib ps_post ps_sq).
Definition ps_closed : gst := state_of (exec rle_zlib gdxClose ps_st).
Definition ps_read : gst := state_of (exec rle_zlib (gdxOpenReadEx (s2z "v.gdx") 0) ps_closed).
Definition ps_rpre : list resp := answer_of (run rle_zlib ps_pre pc_0).
Definition ps_rseg : list resp := answer_of (run rle_zlib ps_seg ps_sp).
Definition ps_rbody : list resp := removelast (tl ps_rseg).
Definition ps_rpost : list resp := answer_of (run rle_zlib ps_post ps_sq).
Definition ps_file : list Z := match disk_get (e_disk (g_env ps_closed)) (s2z "v.gdx") with Some F => F | None => [] end.
Lemma ps_parts : in_parts rle_zlib (s2z "v.gdx") (s2z "test") 1 ps_pre ps_sp ps_seg ps_rseg ps_sq ps_post ps_st ps_read.
Proof.
  exists ps_rpre, ps_rpost. split.
  { apply writes_made. exists (new_object []), pc_0, (ret_i 1 [0]). split; [vm_compute; reflexivity|]. split; [reflexivity|]. split; [apply str_okb_ok; vm_compute; reflexivity|].
    split; [apply calls_okb_ok; vm_compute; reflexivity|]. vm_compute. reflexivity. }
  split; [vm_compute; reflexivity|]. split; [vm_compute; reflexivity|]. split.
  { apply writes_made. exists (new_object []), pc_0, (ret_i 1 [0]). split; [vm_compute; reflexivity|]. split; [reflexivity|]. split; [apply str_okb_ok; vm_compute; reflexivity|].
    split; [apply calls_okb_ok; vm_compute; reflexivity|]. vm_compute. reflexivity. }
  split; [vm_compute; reflexivity|]. exists (ret 0), ps_closed, ps_file, ps_closed, 0.
  split; [vm_compute; reflexivity|]. split; [vm_compute; reflexivity|]. split; [apply counters_fit_test; vm_compute; reflexivity|].
  split; [vm_compute; reflexivity|]. split; [split; vm_compute; reflexivity|]. split; [vm_compute; reflexivity|]. split; [reflexivity|].
  vm_compute. reflexivity.
Qed.
Lemma ps_free : acceptable rle_zlib ps_sp (s2z "s") 2 dt_set.
Proof.
  split; [|split; [intros nm []|split; [|split; vm_compute; intuition discriminate]]].
  - intros n nm d t X. exfalso. apply symbol_iff in X. destruct X as (s & X & _). apply znth_In in X. vm_compute in X. exact X.
  - apply good_ident_spec. vm_compute. reflexivity.
Qed.

Example C58_case_labels : accepted_str ps_body ps_rbody = handed_str ps_body /\ errors rle_zlib ps_sq 0 /\
  exists items recs, Forall2 (numbered_by rle_zlib ps_read) (handed_str ps_body) items /\ Permutation items recs /\ StronglySorted lex_lt (List.map fst recs) /\
    wrote rle_zlib ps_read 1 2 dt_set standard_values recs.
Proof.
  assert (X : ps_rseg = ret 1 :: ps_rbody ++ [ret 1]) by (vm_compute; reflexivity). pose proof ps_parts as P. rewrite X in P.
  destruct (C58_labels _ _ _ _ _ _ (s2z "s") (s2z "a set") 2 dt_set 0 ps_body _ ps_rbody _ _ _ _ _ 0 standard_values 0 P) as (_ & _ & A & B & _ & _ & _ & items & recs & C1 & C2 & C3 & C4).
  - vm_compute. reflexivity.
  - repeat constructor.
  - repeat constructor.
  - vm_compute. reflexivity.
  - exact ps_free.
  - eexists. ans.
  - ans.
  - ans.
  - repeat constructor; cbn [fst]; apply well_formed_iff; vm_compute; reflexivity.
  - vm_compute. repeat constructor; cbn; intuition discriminate.
  - split; [exact A|]. split; [exact B|]. exists items, recs. auto.
Qed.

Definition pu_pre : list call := [gdxUELRegisterMapStart; gdxUELRegisterMap 30 (s2z "c"); gdxUELRegisterMap 10 (s2z "a"); gdxUELRegisterMap 20 (s2z "b"); gdxUELRegisterDone].
Definition pu_start : call := gdxDataWriteMapStart (s2z "s") (s2z "a set") 2 dt_set 0.
Definition pu_body : list call := [gdxDataWriteMap [20; 10] [0]; gdxAddSetText (s2z "first"); gdxDataWriteMap [10; 30] [dbl_1]; gdxDataWriteMap [10; 20] [0]].
Definition pu_seg : list call := pu_start :: pu_body ++ [gdxDataWriteDone].
Definition pu_post : list call := [gdxDataWriteMapStart (s2z "p") (s2z "") 1 dt_par 0; gdxDataWriteMap [20] [dbl_1]; gdxDataWriteDone].
Definition pu_sp : gst := state_of (run rle_zlib pu_pre pc_0).
Definition pu_sq : gst := state_of (run rle_zlib pu_seg pu_sp).
Definition pu_st : gst := state_of (run rle_zlib pu_post pu_sq).
Definition pu_closed : gst := state_of (exec rle_zlib gdxClose pu_st).
Definition pu_read : gst := state_of (exec rle_zlib (gdxOpenReadEx (s2z "v.gdx") 0) pu_closed).
Definition pu_rpre : list resp := answer_of (run rle_zlib pu_pre pc_0).
Definition pu_rseg : list resp := answer_of (run rle_zlib pu_seg pu_sp).
Definition pu_rbody : list resp := removelast (tl pu_rseg).
Definition pu_rpost : list resp := answer_of (run rle_zlib pu_post pu_sq).
Definition pu_file : list Z := match disk_get (e_disk (g_env pu_closed)) (s2z "v.gdx") with Some F => F | None => [] end.
Lemma pu_parts : in_parts rle_zlib (s2z "v.gdx") (s2z "test") 1 pu_pre pu_sp pu_seg pu_rseg pu_sq pu_post pu_st pu_read.
Proof.
  exists pu_rpre, pu_rpost. split.
  { apply writes_made. exists (new_object []), pc_0, (ret_i 1 [0]). split; [vm_compute; reflexivity|]. split; [reflexivity|]. split; [apply str_okb_ok; vm_compute; reflexivity|].
    split; [apply calls_okb_ok; vm_compute; reflexivity|]. vm_compute. reflexivity. }
  split; [vm_compute; reflexivity|]. split; [vm_compute; reflexivity|]. split.
  { apply writes_made. exists (new_object []), pc_0, (ret_i 1 [0]). split; [vm_compute; reflexivity|]. split; [reflexivity|]. split; [apply str_okb_ok; vm_compute; reflexivity|].
    split; [apply calls_okb_ok; vm_compute; reflexivity|]. vm_compute. reflexivity. }
  split; [vm_compute; reflexivity|]. exists (ret 0), pu_closed, pu_file, pu_closed, 0.
  split; [vm_compute; reflexivity|]. split; [vm_compute; reflexivity|]. split; [apply counters_fit_test; vm_compute; reflexivity|].
  split; [vm_compute; reflexivity|]. split; [split; vm_compute; reflexivity|]. split; [vm_compute; reflexivity|]. split; [reflexivity|].
  vm_compute. reflexivity.
Qed.
Lemma pu_free : acceptable rle_zlib pu_sp (s2z "s") 2 dt_set.
Proof.
  split; [|split; [intros nm X; vm_compute in X; destruct X|split; [|split; vm_compute; intuition discriminate]]].
  - intros n nm d t X. exfalso. apply symbol_iff in X. destruct X as (s & X & _). apply znth_In in X. vm_compute in X. exact X.
  - apply good_ident_spec. vm_compute. reflexivity.
Qed.

Lemma pu_stands : forall u k t, exec rle_zlib (gdxGetUEL u) pu_sp = Done (ret_s 1 [t], pu_sp) -> exec rle_zlib (gdxUMFindUEL t) pu_sp = Done (ret_i 1 [k; u], pu_sp) -> stands_for rle_zlib pu_sp u k.
Proof. intros u k t A B. exists t. split; [exists pu_sp; exact A|]. exists u, pu_sp. exact B. Qed.
Example C58_case_user_numbers : accepted_map pu_body pu_rbody = handed_map pu_body /\ errors rle_zlib pu_sq 0 /\
  exists recs, Permutation [([3; 2], [0]); ([2; 1], [dbl_1]); ([2; 3], [0])] recs /\ StronglySorted lex_lt (List.map fst recs) /\ wrote rle_zlib pu_read 1 2 dt_set standard_values recs.
Proof.
  assert (X : pu_rseg = ret 1 :: pu_rbody ++ [ret 1]) by (vm_compute; reflexivity). pose proof pu_parts as P. rewrite X in P.
  destruct (C58_user_numbers _ _ _ _ _ _ (s2z "s") (s2z "a set") 2 dt_set 0 pu_body _ pu_rbody _ _ _ _ _ 0 standard_values 0 [([3; 2], [0]); ([2; 1], [dbl_1]); ([2; 3], [0])] P) as (_ & _ & A & B & _ & _ & _ & C).
  - vm_compute. reflexivity.
  - repeat constructor.
  - vm_compute. reflexivity.
  - exact pu_free.
  - eexists. ans.
  - ans.
  - ans.
  - assert (S1 : stands_for rle_zlib pu_sp 10 2) by (apply (pu_stands 10 2 (s2z "a")); vm_compute; reflexivity).
    assert (S2 : stands_for rle_zlib pu_sp 20 3) by (apply (pu_stands 20 3 (s2z "b")); vm_compute; reflexivity).
    assert (S3 : stands_for rle_zlib pu_sp 30 1) by (apply (pu_stands 30 1 (s2z "c")); vm_compute; reflexivity).
    cbn [pu_body handed_map List.map cut fst snd]. repeat (constructor; [split; [repeat (constructor; [assumption|]); constructor|reflexivity]|]). constructor.
  - cbn. repeat constructor; cbn; intuition discriminate.
  - split; [exact A|]. split; [exact B|exact C].
Qed.

Print Assumptions C58_nothing_is_refused.
Print Assumptions C58_labels.
Print Assumptions C58_user_numbers.
