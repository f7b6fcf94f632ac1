(** * Readers: the labels of an object that reads a written file *)

From Coq Require Import String Permutation Sorted.
From Verif Require Import Base Prim Values FloatAcr Records LinkedData StrHash IntMap Strings AStream BufStream State
  FileImage ApiCore ApiFile ApiWrite ApiRead Api FileFacts BlockFacts StreamFacts OpenFacts DicInv WriteInv WriteSteps Journal WriteCalls WriteTrace
  Footprint SessInv FileFlow Sessions Vocab PropErr Reopen ReadFacts ReadRecs ReadLoops Cases PropNames PropMeta PropTexts PropDomain Segment LabelFacts Buffered Contents
  Domains Wrote PropRead.
Open Scope Z_scope.
Open Scope list_scope.

Definition labels_good (M : bool) (st : gst) : Prop := labels_inv (g_dic st) /\ user_inv M (g_dic st) /\ d_un (g_dic st) = true.

Lemma reopened_labels : forall z name prod compr cs rs st st2, reopened z name prod compr cs rs st st2 -> labels_good false st2.
Proof.
  intros z name prod compr cs rs st st2 RO. pose proof RO as (W & _). destruct (writes_labels _ _ _ _ _ _ _ W) as ((LD & LG) & _ & _).
  destruct (reopened_tables _ _ _ _ _ _ _ _ RO) as (D & _). unfold labels_good. rewrite D.
  assert (X : forall i e, znth (d_uels (loaded (contents_of (g_dic st)))) i = Some e -> snd e = -1 /\ exists u, znth (d_uels (g_dic st)) i = Some (fst e, u)).
  { intros i e H. cbn [d_uels loaded c_uels contents_of] in H. rewrite !znth_map in H. destruct (znth (d_uels (g_dic st)) i) as [[t u]|]; [|discriminate].
    cbn [option_map fst] in H. injection H as <-. cbn. eauto. }
  split; [|split].
  - split.
    + intros i j a b Hi Hj. destruct (X _ _ Hi) as (_ & u & Ei), (X _ _ Hj) as (_ & v & Ej). exact (LD i j _ _ Ei Ej).
    + intros i e Hi. destruct (X _ _ Hi) as (_ & u & Ei). exact (LG _ _ Ei).
  - constructor.
    + apply im_new_inv.
    + intros n. left. apply im_get_new.
    + intros i e H. left. apply (X _ _ H).
    + intros _ i e H G. destruct (X _ _ H) as (E & _). lia.
    + intros _ n H. cbn in H. lia.
  - reflexivity.
Qed.
Lemma wrote_reopened : forall z st2 n dim typ wt recs, wrote z st2 n dim typ wt recs -> exists name prod compr cs rs st, reopened z name prod compr cs rs st st2.
Proof.
  intros z st2 n dim typ wt recs (rd1 & W & L). destruct L as [rd1|rd1 rd2 cs rs rd3 _ (name0 & prod & compr & cs0 & rs0 & st0 & F & name & sta & st & _ & _ & _ & _ & RO)]; [|do 6 eexists; exact RO].
  destruct W as [W|[(sd & sq & doms & handed & items & W & _)|(sp & sd & sq & doms & handed & items & W & _)]].
  - destruct W as (name & prod & compr & pre & sp & c & id & text & uinfo & mms & body & r & rbody & rd & sq & post & st & P & _).
    destruct P as (rpre & rpost & _ & _ & _ & RO). do 6 eexists. exact RO.
  - destruct W as (name & prod & compr & pre & sp & id & text & uinfo & dcs & body & r & rdcs & rbody & rd & post & st & s1 & P & _).
    destruct P as (rpre & rpost & _ & _ & _ & RO). do 6 eexists. exact RO.
  - destruct W as (name & prod & compr & pre & id & text & uinfo & dcs & body & r & rdcs & rbody & rd & post & st & s1 & P & _).
    destruct P as (rpre & rpost & _ & _ & _ & RO). do 6 eexists. exact RO.
Qed.
Lemma wrote_labels : forall z st2 n dim typ wt recs, wrote z st2 n dim typ wt recs -> labels_good false st2.
Proof. intros z st2 n dim typ wt recs W. destruct (wrote_reopened _ _ _ _ _ _ _ W) as (name & prod & compr & cs & rs & st & RO). eapply reopened_labels. exact RO. Qed.

Lemma then_during : forall z cs rs a b, then_calls z cs rs a b -> during z cs a b.
Proof.
  intros z cs rs a b [FA R]. split; [|split; [|eauto]].
  - apply forallb_forall. intros c I. rewrite Forall_forall in FA. apply (FA c I).
  - eapply Forall_impl; [|exact FA]. intros c [_ H]. exact H.
Qed.
Lemma labels_good_then : forall z cs rs a b M, then_calls z cs rs a b -> labels_good M a -> (M = true \/ Forall (fun c => maps c = false) cs) -> labels_good M b.
Proof.
  intros z cs rs a b M TC (L & U & N) MM. unfold labels_good.
  eapply (during_dic z (fun d => labels_inv d /\ user_inv M d /\ d_un d = true)) with (cs := cs) (a := a).
  - intros c d d' I A (I1 & I2 & I3). split; [eapply labels_step; eassumption|]. split.
    + eapply user_step; [|exact A|exact I2]. destruct MM as [MM|MM]; [left; exact MM|right]. rewrite Forall_forall in MM. exact (MM c I).
    + destruct (flags_keep _ _ _ A) as (_ & -> & _). exact I3.
  - eapply then_during. exact TC.
  - auto.
Qed.
Lemma labels_good_weak : forall st, labels_good false st -> labels_good true st.
Proof. intros st (L & [U1 U2 U3 U4 U5] & N). split; [exact L|]. split; [|exact N]. constructor; auto; discriminate. Qed.

(** Two labels never differ only in case. *)
Lemma distinct_by_inv : forall z st, labels_inv (g_dic st) -> distinct_labels z st.
Proof.
  intros z st [D _] i j s t A B U. apply label_iff in A, B. unfold uel_text in A, B.
  destruct (znth (d_uels (g_dic st)) (i - 1)) as [ea|] eqn:Ei; [|discriminate]. destruct (znth (d_uels (g_dic st)) (j - 1)) as [eb|] eqn:Ej; [|discriminate].
  injection A as <-. injection B as <-. apply (same_text_spec true) in U. pose proof (D _ _ _ _ Ei Ej U). lia.
Qed.
Theorem labels_stay_distinct : forall z st2 n dim typ wt recs cs rs st, wrote z st2 n dim typ wt recs -> then_calls z cs rs st2 st -> distinct_labels z st.
Proof.
  intros z st2 n dim typ wt recs cs rs st W TC. apply distinct_by_inv.
  apply (labels_good_then _ _ _ _ _ true TC); [apply labels_good_weak; eapply wrote_labels; exact W|left; reflexivity].
Qed.
