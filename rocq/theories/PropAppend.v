(** * PropAppend: adding to a file

    C26.  What was in a file before it was opened with gdxOpenAppend is there afterwards,
    too. *)

From Coq Require Import String Permutation Sorted.
From Verif Require Import Base Prim Values FloatAcr Records LinkedData StrHash IntMap Strings AStream BufStream State
  FileImage ApiCore ApiFile ApiWrite ApiRead Api FileFacts BlockFacts StreamFacts OpenFacts DicInv WriteInv WriteSteps Journal WriteCalls WriteTrace
  Footprint SessInv FileFlow Sessions Vocab PropErr Reopen ReadFacts ReadRecs ReadLoops Cases PropNames PropMeta PropTexts PropDomain Segment LabelFacts Buffered Contents
  Domains Wrote PropRead PropStrings PropChecks Readers PropLabels.
Open Scope Z_scope.
Open Scope list_scope.

(** ** The session that adds *)

Record added_session (z : zlib) (rd1 : gst) (cs : list call) (rs : list resp) (rd2 sta st : gst) : Prop := mkAS {
  as_dic : g_dic sta = g_dic rd1;
  as_start : appended z sta;
  as_mode : g_mode sta = fw_init;
  as_calls : Forall while_writing cs;
  as_run : run z cs sta = Done (rs, st);
  as_jinv : exists h J, jinv z h [] J sta /\ j_phase J = JIdle;
  as_names : exists np, dinv np (g_dic sta);
  as_end : exists name prod compr, reopened z name prod compr cs rs st rd2 /\ f_prod (g_fil rd1) = prod /\ f_sysid (g_fil rd1) = f_sysid (g_fil rd2)
}.

Lemma writes_sysid : forall z name prod compr cs rs st, writes z name prod compr cs rs st -> g_mode st = fw_init -> f_sysid (g_fil st) = auditLine.
Proof.
  intros z name prod compr cs rs st W M. destruct (writes_jinv _ _ _ _ _ _ _ W) as ((J & [(t & G & [CO _] & _)|(_ & D & _)]) & _).
  - destruct (co_hd _ _ _ _ _ CO) as (E & _). exact E.
  - exfalso. rewrite M in D. unfold data_modes in D. cbn in D. intuition discriminate.
Qed.

Lemma extended_session : forall z rd1 cs rs rd2, extended z rd1 cs rs rd2 -> exists sta st, added_session z rd1 cs rs rd2 sta st.
Proof.
  intros z rd1 cs rs rd2 (name0 & prod & compr & cs0 & rs0 & st0 & F & name & sta & st & RO & CF & AP & R & RO2).
  destruct (reopened_tables _ _ _ _ _ _ _ _ RO) as (D1 & P1 & _ & S1 & _). destruct (reopened_tables _ _ _ _ _ _ _ _ RO2) as (_ & P2 & _ & S2 & _ & _ & _ & W2 & _).
  pose proof RO as (W & M & _). destruct (appending_facts _ _ _ _ _ _ _ _ _ _ W CF AP) as (DA & MA & TA & _ & _ & np & _).
  destruct (writes_last _ _ _ _ _ _ _ W2) as (_ & FA & _).
  assert (W1 : writes z name prod compr [] [] sta) by (eapply writes_added; [exact W|exact CF|exact AP|constructor|reflexivity]).
  destruct (writes_jinv0 _ _ _ _ _ _ _ W1) as ((R0 & JI) & _). cbn [jrun] in JI.
  exists sta, st. constructor.
  - congruence.
  - exists name0, prod, compr, cs0, rs0, st0, F, name. auto.
  - exact MA.
  - exact FA.
  - exact R.
  - exists (new_head prod compr), (first_journal R0). split; [exact JI|reflexivity].
  - destruct JI as [(t & G & [CO _] & _)|(X & _)]; [eexists; apply CO|discriminate X].
  - exists name, prod, compr. split; [exact RO2|]. split; [exact P1|].
    pose proof (writes_sysid _ _ _ _ _ _ _ W M). pose proof (writes_sysid _ _ _ _ _ _ _ W2 (proj1 (proj2 RO2))). congruence.
Qed.

Lemma session_during : forall z rd1 cs rs rd2 sta st, added_session z rd1 cs rs rd2 sta st -> during z cs sta st.
Proof. intros z rd1 cs rs rd2 sta st A. eapply keeps_during; [apply A|apply A]. Qed.

(** ** C26: opening *)

(** A file that was written and closed can be opened to append to it, under any name and
    by any object without an open file. *)
Theorem C26_opens : forall z name0 prod compr cs rs st F name ob, writes z name0 prod compr cs rs st -> closed_file z st name0 F ->
  closed ob -> name <> [] -> disk_get (e_disk (g_env ob)) name = Some F ->
  exists sta, exec z (gdxOpenAppend name) ob = Done (ret_i 1 [0], sta).
Proof.
  intros z name0 prod compr cs rs st F name ob W (M & r & st1 & E & DG & CT & SZ) CL NE DO.
  destruct (writes_jinv _ _ _ _ _ _ _ W) as ((J & JI) & NM & _).
  destruct (close_writes _ _ _ _ _ _ _ JI M E) as (F' & m & G & H1 & _ & _ & _ & _ & _ & C). rewrite H1, NM, disk_get_put in DG. injection DG as ->.
  destruct (append_ok z _ _ _ _ _ _ _ (C CT SZ) CL NE DO) as (sta & base & EA & _). eauto.
Qed.

(** ** C26: what the tables say *)

(** The session that adds begins with what the reader of the old file knows. *)
Lemma start_answers : forall z rd1 cs rs rd2 sta st q r, added_session z rd1 cs rs rd2 sta st -> answers z rd1 q r ->
  match q with
  | gdxSymbolInfo _ | gdxSymbolInfoX _ | gdxSymbolGetDomain _ | gdxSymbolGetDomainX _ | gdxAcronymGetInfo _ => True
  | _ => False
  end -> answers z sta q r.
Proof.
  intros z rd1 cs rs rd2 sta st q r A H0 Q. pose proof (as_dic _ _ _ _ _ _ _ A) as D. clear A. revert H0. unfold answers.
  destruct q; try destruct Q; cbn [exec]; intros (x & H).
  - unfold symbol_info in *. rewrite D. destruct (_ =? 0); [injection H as <- _; eauto|]. destruct (znth _ _) as [[nm s]|]; injection H as <- _; eauto.
  - unfold symbol_info_x in *. rewrite D. destruct (_ =? 0); [injection H as <- _; eauto|]. destruct (get_sym _ _) as [s|]; injection H as <- _; eauto.
  - unfold symbol_get_domain in *. rewrite D. destruct (negb _); [discriminate|]. destruct (get_sym _ _) as [s|]; [|injection H as <- _; unfold fail_with; eauto].
    destruct (sy_doms s); injection H as <- _; eauto.
  - unfold symbol_get_domain_x in *. rewrite D. destruct (negb _); [discriminate|]. destruct (get_sym _ _) as [s|]; [|injection H as <- _; unfold fail_with; eauto].
    destruct (sy_dstrs s) as [l|]; [destruct (dom_names _ l); [|discriminate]; injection H as <- _; cbn [obind]; eauto|].
    destruct (sy_doms s) as [l|]; [destruct (dom_names _ l); [|discriminate]; injection H as <- _; cbn [obind]; eauto|]. injection H as <- _; eauto.
  - unfold acronym_get_info in *. rewrite D. destruct (negb _); [discriminate|]. destruct (znth _ _) as [a|]; [|injection H as <- _; eauto].
    destruct (_ && _); [|discriminate]. injection H as <- _; eauto.
Qed.

(** A symbol keeps its number, its name, its dimension and its type. *)
Theorem C26_symbols : forall z rd1 cs rs rd2 n name dim typ, extended z rd1 cs rs rd2 -> symbol z rd1 n name dim typ -> symbol z rd2 n name dim typ.
Proof.
  intros z rd1 cs rs rd2 n name dim typ X [N S]. destruct (extended_session _ _ _ _ _ X) as (sta & st & A).
  pose proof (start_answers _ _ _ _ _ _ _ _ _ A S I) as S1.
  destruct (C29_symbols_stay _ _ _ _ n name dim typ (session_during _ _ _ _ _ _ _ A) (conj N S1)) as [_ S2].
  destruct (as_end _ _ _ _ _ _ _ A) as (nm & prod & compr & RO & _). split; [exact N|].
  exact (proj1 (C20_metadata_is_found_again _ _ _ _ _ _ _ _ (gdxSymbolInfo n) RO I _) S2).
Qed.

(** New symbols have the numbers after those of the old ones. *)
Theorem C26_new_symbols : forall z rd1 cs rs rd2 k n name dim typ, extended z rd1 cs rs rd2 -> symbols z rd1 k -> symbol z rd2 n name dim typ ->
  symbol z rd1 n name dim typ \/ k < n.
Proof.
  intros z rd1 cs rs rd2 k n name dim typ X K S. apply symbols_iff in K. subst k.
  destruct (Z.le_gt_cases n (sym_count (g_dic rd1))) as [L|L]; [left|right; lia].
  assert (P : 1 <= n). { apply symbol_iff in S. destruct S as (s & E & _). apply znth_Some in E. lia. }
  destruct (znth_exists (d_names (g_dic rd1)) (n - 1)) as ([nm s] & E); [unfold sym_count in L; lia|].
  assert (S1 : symbol z rd1 n nm (Z.of_nat (sy_dim s)) (sy_type s)) by (apply symbol_iff; eauto).
  pose proof (C26_symbols _ _ _ _ _ _ _ _ _ X S1) as S2. apply symbol_iff in S, S2. destruct S as (s1 & E1 & -> & ->), S2 as (s2 & E2 & D2 & T2).
  rewrite E1 in E2. injection E2 as -> ->. rewrite <- D2, <- T2. exact S1.
Qed.

(** The explanatory text and the user information of a symbol. *)
Theorem C26_symbol_texts : forall z rd1 cs rs rd2 n count uinfo t, extended z rd1 cs rs rd2 -> n <> 0 ->
  answers z rd1 (gdxSymbolInfoX n) (ret_is 1 [count; uinfo] [t]) -> exists count', answers z rd2 (gdxSymbolInfoX n) (ret_is 1 [count'; uinfo] [t]).
Proof.
  intros z rd1 cs rs rd2 n count uinfo t X N S. destruct (extended_session _ _ _ _ _ X) as (sta & st & A).
  pose proof (start_answers _ _ _ _ _ _ _ _ _ A S I) as S1.
  destruct (C34_texts_stay _ _ _ _ n _ _ _ (session_during _ _ _ _ _ _ _ A) N S1) as (c' & S2).
  destruct (as_end _ _ _ _ _ _ _ A) as (nm & prod & compr & RO & _). exists c'.
  exact (proj1 (C20_metadata_is_found_again _ _ _ _ _ _ _ _ (gdxSymbolInfoX n) RO N _) S2).
Qed.

(** The labels and their numbers. *)
Theorem C26_labels : forall z rd1 cs rs rd2 k s, extended z rd1 cs rs rd2 -> no_rename cs -> label z rd1 k s -> label z rd2 k s.
Proof.
  intros z rd1 cs rs rd2 k s X NR L. destruct (extended_session _ _ _ _ _ X) as (sta & st & A).
  assert (L1 : label z sta k s) by (apply label_iff; rewrite (as_dic _ _ _ _ _ _ _ A); apply label_iff in L; exact L).
  assert (W : working z [] sta).
  { left. exists sta. split; [right; apply A|]. split; [reflexivity|]. split; [constructor|]. exists []. reflexivity. }
  pose proof (C11_labels_stay _ _ _ _ _ _ _ W (session_during _ _ _ _ _ _ _ A) NR L1) as L2.
  destruct (as_end _ _ _ _ _ _ _ A) as (nm & prod & compr & RO & _). apply (proj1 (C20_labels_are_found_again _ _ _ _ _ _ _ _ RO)). exact L2.
Qed.

(** The texts of elements and their numbers. *)
Theorem C26_element_texts : forall z rd1 cs rs rd2 n t, extended z rd1 cs rs rd2 -> elem_text z rd1 n t -> elem_text z rd2 n t.
Proof.
  intros z rd1 cs rs rd2 n t X L. destruct (extended_session _ _ _ _ _ X) as (sta & st & A).
  assert (L1 : elem_text z sta n t) by (apply elem_text_iff; rewrite (as_dic _ _ _ _ _ _ _ A); apply elem_text_iff in L; exact L).
  destruct (as_end _ _ _ _ _ _ _ A) as (nm & prod & compr & RO & _). apply (proj1 (C20_texts_are_found_again _ _ _ _ _ _ _ _ _ _ RO)).
  eapply C33_texts_stay; [eapply session_during; exact A|exact L1].
Qed.

(** The acronyms, unless the session changes them. *)
Theorem C26_acronyms : forall z rd1 cs rs rd2 n nm text ix, extended z rd1 cs rs rd2 -> no_acronym_info cs -> nm <> [] ->
  acronym_is z rd1 n nm text ix -> acronym_is z rd2 n nm text ix.
Proof.
  intros z rd1 cs rs rd2 n nm text ix X NI NE L. destruct (extended_session _ _ _ _ _ X) as (sta & st & A).
  pose proof (start_answers _ _ _ _ _ _ _ _ _ A L I) as L1.
  destruct (as_end _ _ _ _ _ _ _ A) as (name & prod & compr & RO & _). eapply C20_acronyms_are_found_again; [exact RO|exact NE|].
  eapply C40_acronyms_stay; [eapply session_during; exact A|exact NI|exact L1].
Qed.

Lemma znth_ext : forall {A} (l m : list A), (forall i, znth l i = znth m i) -> l = m.
Proof.
  intros A l m H. assert (G : forall i, nth_error l i = nth_error m i).
  { intros i. specialize (H (Z.of_nat i)). unfold znth in H. destruct (Z.ltb_spec (Z.of_nat i) 0); [lia|]. rewrite Nat2Z.id in H. exact H. }
  clear H. revert m G. induction l as [|x l IH]; intros [|y m] G; [reflexivity|discriminate (G O)|discriminate (G O)|]. pose proof (G O) as E. injection E as ->. f_equal. apply IH. intros i. exact (G (S i)).
Qed.
(** The comments of a symbol, followed by those that are added. *)
Theorem C26_comments : forall z rd1 cs rs rd2 n l, extended z rd1 cs rs rd2 -> Forall names_its_symbol cs -> comments z rd1 n l ->
  comments z rd2 n (l ++ added n cs rs).
Proof.
  intros z rd1 cs rs rd2 n l X K C. destruct (extended_session _ _ _ _ _ X) as (sta & st & A).
  assert (E : l = PropTexts.kept (g_dic rd1) n).
  { pose proof (comments_kept z rd1 n) as C'. assert (G : forall i, znth l i = znth (PropTexts.kept (g_dic rd1) n) i).
    { intros i. specialize (C (i + 1)). specialize (C' (i + 1)). replace (i + 1 - 1) with i in * by lia.
      destruct (znth l i) as [t|] eqn:E1.
      - symmetry. apply C'. apply C. reflexivity.
      - destruct (znth (PropTexts.kept (g_dic rd1) n) i) as [t|] eqn:E2; [|reflexivity]. apply C. apply C'. reflexivity. }
    apply znth_ext. exact G. }
  subst l. rewrite <- (as_dic _ _ _ _ _ _ _ A). destruct (keeps_all _ (as_calls _ _ _ _ _ _ _ A)) as [A1 A2].
  rewrite <- (run_kept z cs rs sta st n A1 A2 K (as_run _ _ _ _ _ _ _ A)).
  destruct (as_end _ _ _ _ _ _ _ A) as (name & prod & compr & RO & _). intros k t.
  etransitivity; [symmetry; exact (C20_metadata_is_found_again _ _ _ _ _ _ _ _ (gdxSymbolGetComment n k) RO I (ret_s 1 [t]))|]. apply comments_kept.
Qed.

(** The producer and the version of the library that made the file. *)
Theorem C26_file_version : forall z rd1 cs rs rd2, extended z rd1 cs rs rd2 -> same_answer z rd1 rd2 gdxFileVersion.
Proof.
  intros z rd1 cs rs rd2 X r. destruct (extended_session _ _ _ _ _ X) as (sta & st & A). destruct (as_end _ _ _ _ _ _ _ A) as (name & prod & compr & RO & P1 & S1).
  destruct (reopened_tables _ _ _ _ _ _ _ _ RO) as (_ & P2 & _). unfold answers. cbn [exec]. unfold file_version. rewrite P1, P2, S1.
  split; intros (x & H); injection H as <- _; eauto.
Qed.

(** The domains, as numbers of symbols. *)
Lemma start_settled : forall z rd1 cs rs rd2 sta st n, added_session z rd1 cs rs rd2 sta st -> 1 <= n <= sym_count (g_dic rd1) ->
  doms_of (g_dic st) n = doms_of (g_dic rd1) n.
Proof.
  intros z rd1 cs rs rd2 sta st n A R. destruct (as_jinv _ _ _ _ _ _ _ A) as (h & J & JI & _). rewrite <- (as_dic _ _ _ _ _ _ _ A) in *.
  eapply (settled_run z h [] cs J sta rs st n JI); [apply A|apply A|]. split; [exact R|]. intros [M _]. rewrite (as_mode _ _ _ _ _ _ _ A) in M.
  unfold dom_modes in M. cbn in M. intuition discriminate.
Qed.
Theorem C26_domains : forall z rd1 cs rs rd2 n k, extended z rd1 cs rs rd2 -> symbols z rd1 k -> 1 <= n <= k -> same_answer z rd1 rd2 (gdxSymbolGetDomain n).
Proof.
  intros z rd1 cs rs rd2 n k X K R r. apply symbols_iff in K. subst k. destruct (extended_session _ _ _ _ _ X) as (sta & st & A).
  destruct (as_end _ _ _ _ _ _ _ A) as (nm & prod & compr & RO & _). pose proof (start_settled _ _ _ _ _ _ _ _ A R) as E.
  assert (NN : d_nn (g_dic sta) = true) by (destruct (as_names _ _ _ _ _ _ _ A) as (np & D); apply D).
  destruct (reopened_tables _ _ _ _ _ _ _ _ RO) as (_ & _ & _ & _ & _ & _ & _ & _ & _ & NS & _).
  assert (S1 : same_answer z rd1 st (gdxSymbolGetDomain n)).
  { apply get_domain_same; [exact E|rewrite <- (as_dic _ _ _ _ _ _ _ A); exact NN|exact NS]. }
  etransitivity; [apply S1|]. apply (C20_metadata_is_found_again _ _ _ _ _ _ _ _ (gdxSymbolGetDomain n) RO I).
Qed.

(** The domains, as names, unless the session sets a relaxed domain. *)
Definition dstrs_of (d : dic) (n : Z) : option (option (list Z)) := option_map sy_dstrs (get_sym d n).
Lemma dstrs_stay : forall z cs a b n, during z cs a b -> no_relaxed n cs -> 1 <= n <= sym_count (g_dic a) -> dstrs_of (g_dic b) n = dstrs_of (g_dic a) n.
Proof.
  intros z cs a b n D NR R.
  apply (during_dic z (fun d => 1 <= n <= sym_count d /\ dstrs_of d n = dstrs_of (g_dic a) n)) with (cs := cs) (a := a); [|exact D|auto].
  intros c d d' IC A [RD E]. rewrite <- E. clear E D. unfold sym_count, dstrs_of, get_sym in *.
  destruct (names_cases _ _ _ A) as [->|[(name & s & _ & _ & _ & _ & ->)|(k & e & s & E & K & ->)]]; [auto| |].
  - split; [rewrite zlen_app; pose proof (zlen_nonneg [(name, s)]); lia|]. rewrite znth_app_l by lia. reflexivity.
  - split; [rewrite zset_length; exact RD|]. destruct (Z.eq_dec (n - 1) (k - 1)) as [EQ|NE].
    + assert (k = n) by lia. subst k. rewrite znth_zset_eq by (eapply znth_Some; exact E). rewrite E. cbn [option_map snd]. f_equal.
      destruct K as [(_ & _ & _ & _ & _ & _ & _ & K & _)|[(ids & v & _ & ->)|[(ids & ns & -> & ->)|(j & t & _ & _ & ->)]]]; [exact K|reflexivity|destruct (NR _ IC)|reflexivity].
    + rewrite znth_zset_neq by congruence. reflexivity.
Qed.
Lemma dom_names_grow : forall d d' l ss, names_grow d d' -> dom_names (sym_name d) l = Done ss -> dom_names (sym_name d') l = Done ss.
Proof.
  intros d d' l. induction l as [|k l IH]; intros ss G H; cbn [dom_names] in *; [exact H|]. destruct (k =? 0); cbn [obind] in *.
  - destruct (dom_names (sym_name d) l) as [t|]; [|discriminate]. rewrite (IH _ G eq_refl). exact H.
  - unfold sym_name in *. destruct (znth (d_names d) (k - 1)) as [e|] eqn:Z1; [|discriminate]. cbn [option_map obind] in H.
    destruct (G _ _ Z1) as (e' & Z2 & F & _). rewrite Z2. cbn [option_map obind]. rewrite F. 
    destruct (dom_names (fun n => option_map fst (znth (d_names d) (n - 1))) l) as [t|]; [|discriminate]. rewrite (IH _ G eq_refl). exact H.
Qed.
Theorem C26_domain_names : forall z rd1 cs rs rd2 n c ss, extended z rd1 cs rs rd2 -> no_relaxed n cs ->
  answers z rd1 (gdxSymbolGetDomainX n) (ret_s c ss) -> c <> 0 -> answers z rd2 (gdxSymbolGetDomainX n) (ret_s c ss).
Proof.
  intros z rd1 cs rs rd2 n c ss X NR H C0. destruct (extended_session _ _ _ _ _ X) as (sta & st & A). pose proof (session_during _ _ _ _ _ _ _ A) as D.
  destruct (as_end _ _ _ _ _ _ _ A) as (nm & prod & compr & RO & _).
  apply (proj1 (C20_metadata_is_found_again _ _ _ _ _ _ _ _ (gdxSymbolGetDomainX n) RO I _)).
  pose proof (start_answers _ _ _ _ _ _ _ _ _ A H I) as H1. pose proof (as_dic _ _ _ _ _ _ _ A) as DE.
  assert (R : 1 <= n <= sym_count (g_dic rd1)).
  { destruct H as (x & H). cbn [exec] in H. unfold symbol_get_domain_x in H. destruct (negb _); [discriminate|]. unfold get_sym in H.
    destruct (znth (d_names (g_dic rd1)) (n - 1)) as [e|] eqn:E; [apply znth_Some in E; unfold sym_count; lia|]. cbn [option_map] in H. injection H as H _ _. congruence. }
  pose proof (start_settled _ _ _ _ _ _ _ _ A R) as S1. rewrite <- DE in S1, R. pose proof (dstrs_stay _ _ _ _ _ D NR R) as S2.
  destruct (reopened_tables _ _ _ _ _ _ _ _ RO) as (_ & _ & _ & _ & _ & _ & _ & _ & _ & NS & _).
  pose proof (during_grow _ _ _ _ D) as G. pose proof H1 as H2. destruct H1 as (x & H1). cbn [exec] in H1. unfold symbol_get_domain_x in H1.
  destruct (d_nn (g_dic sta)) eqn:NN; [|discriminate]. cbn [negb] in H1. unfold doms_of, dstrs_of in *.
  destruct (get_sym (g_dic sta) n) as [s|] eqn:GS; [|injection H1 as H1 _ _; congruence]. destruct (get_sym (g_dic st) n) as [s'|] eqn:GS'; [|discriminate].
  cbn [option_map] in S1, S2. injection S1 as E1 E2. injection S2 as E3.
  destruct (sy_dstrs s) as [l|] eqn:DS.
  - destruct (dom_names _ l); [|discriminate]. cbn [obind] in H1. injection H1 as <- -> _. eapply C32_relaxed_stays; [exact D|exact NR|exact H2].
  - unfold answers. cbn [exec]. unfold symbol_get_domain_x. rewrite NS, GS', E3, E1, E2. cbn [negb]. destruct (sy_doms s) as [l|].
    + destruct (dom_names _ l) as [t|] eqn:DN; [|discriminate]. cbn [obind] in H1. injection H1 as <- <- _. rewrite (dom_names_grow _ _ _ _ G DN). cbn [obind]. eauto.
    + injection H1 as <- <- _. eauto.
Qed.

(** ** C26: the records *)


Lemma as_read_same : forall wt rt f g dim recs prev, translates wt rt f -> translates wt rt g -> Forall (good_rec dim) recs -> no_acronyms wt recs ->
  as_read f prev recs = as_read g prev recs.
Proof.
  intros wt rt f g dim recs. induction recs as [|[k v] recs IH]; intros prev TF TG G NA; [reflexivity|].
  pose proof (Forall_inv G) as (_ & _ & U). pose proof (Forall_inv NA) as A. cbn [fst snd] in U, A. cbn [as_read]. f_equal.
  - f_equal. apply map_ext_in. intros x I. rewrite Forall_forall in U, A. rewrite (TF x (U x I) (A x I)), (TG x (U x I) (A x I)). reflexivity.
  - apply IH; try assumption; eapply Forall_inv_tail; eassumption.
Qed.
Lemma later_wrote : forall z rd1 cs rs rd2 n dim typ wt recs, extended z rd1 cs rs rd2 -> wrote z rd1 n dim typ wt recs -> wrote z rd2 n dim typ wt recs.
Proof. intros z rd1 cs rs rd2 n dim typ wt recs X (rd0 & W & L). exists rd0. split; [exact W|]. eapply later_more; eassumption. Qed.
(** Acronyms: none among the values, or both objects show them in the same way. *)
Definition acronyms_alike (z : zlib) (rd1 rd2 : gst) (wt : list Z) (recs : list (list Z * list Z)) : Prop :=
  no_acronyms wt recs \/ (no_numbering z rd1 /\ no_numbering z rd2 /\ same_answer z rd1 rd2 gdxMapAcronymsToNaN).
Lemma loaded_number : forall c n, acro_number (d_acros (loaded c)) n = n.
Proof.
  intros c n. unfold acro_number. destruct (znth _ _) as [a|] eqn:E; [|reflexivity].
  assert (F : Forall (fun a => ac_rmap a = -1) (d_acros (loaded c))).
  { cbn [d_acros loaded]. apply Forall_forall. intros x I. apply in_map_iff in I. destruct I as (y & <- & _). reflexivity. }
  apply znth_In in E. rewrite Forall_forall in F. rewrite (F a E). reflexivity.
Qed.
Lemma sees_same : forall z rd1 cs rs rd2 t rt wt x, extended z rd1 cs rs rd2 -> tabs rd1 t rt -> tabs rd2 t rt -> same_answer z rd1 rd2 gdxMapAcronymsToNaN ->
  sees rd2 wt x = sees rd1 wt x.
Proof.
  intros z rd1 cs rs rd2 t rt wt x (name0 & prod & compr & cs0 & rs0 & st0 & F & name & sta & st & RO & CF & AP & R & RO2) (_ & _ & T1 & T2) (_ & _ & U1 & U2) MA.
  destruct (reopened_tables _ _ _ _ _ _ _ _ RO) as (D1 & _). destruct (reopened_tables _ _ _ _ _ _ _ _ RO2) as (D2 & _).
  assert (EA : e_acrnan (g_env rd2) = e_acrnan (g_env rd1)).
  { destruct (proj1 (MA (ret (b2z (e_acrnan (g_env rd1))))) (ex_intro _ rd1 eq_refl)) as (y & E). cbn [exec] in E. unfold map_acronyms_to_nan in E. injection E as E _.
    destruct (e_acrnan (g_env rd1)), (e_acrnan (g_env rd2)); try reflexivity; discriminate E. }
  unfold sees, shown. rewrite D1, D2, U2, T2. destruct (classify (wt ++ tail_values) x) as [m|d]; [reflexivity|]. destruct (fleb SV_ACR d); [|reflexivity].
  unfold acro_shown. rewrite T1, U1, EA. destruct (dblInfo d); try reflexivity. destruct (e_acrnan (g_env rd1)); [reflexivity|]. destruct (d_round _) as [n|]; [|reflexivity].
  rewrite !loaded_number. reflexivity.
Qed.
Lemma wrote_read : forall z rd1 cs rs rd2 n dim typ wt recs, extended z rd1 cs rs rd2 -> wrote z rd1 n dim typ wt recs -> some_record dim recs -> acronyms_alike z rd1 rd2 wt recs ->
  exists l, reads_all z rd1 n l /\ reads_all z rd2 n l /\ reads_all_str z rd1 n (List.map (labelled (g_dic rd1)) l) /\
    reads_all_str z rd2 n (List.map (labelled (g_dic rd2)) l) /\ exists f, l = as_read f None recs.
Proof.
  intros z rd1 cs rs rd2 n dim typ wt recs X W SR AA. pose proof (later_wrote _ _ _ _ _ _ _ _ _ _ X W) as W2.
  destruct (wrote_holds _ _ _ _ _ _ _ W) as (H & T & M & _). destruct (wrote_holds _ _ _ _ _ _ _ W2) as (H2 & T2 & M2 & _).
  assert (SE : as_read (sees rd2 wt) None recs = as_read (sees rd1 wt) None recs).
  { destruct AA as [NA|(_ & _ & MA)].
    - eapply as_read_same; [intros x U A; eapply sees_plain; try eassumption; apply H2|intros x U A; eapply sees_plain; try eassumption; apply H|apply H|exact NA].
    - generalize (@None (list Z)). induction recs as [|[k v] recs' IH]; intros prev; [reflexivity|]. cbn [as_read]. f_equal.
      + f_equal. apply map_ext. intros x. eapply sees_same; eassumption.
      + clear - X T T2 MA. revert k. induction recs' as [|[k v] recs IH]; intros k0; [reflexivity|]. cbn [as_read]. rewrite IH. f_equal. f_equal. apply map_ext. intros x. eapply sees_same; eassumption. }
  assert (N1 : no_acronyms wt recs \/ e_nextacr (g_env rd1) <= 0) by (destruct AA as [NA|(NA & _ & _)]; [left; exact NA|right; eapply no_numbering_env; exact NA]).
  assert (N2 : no_acronyms wt recs \/ e_nextacr (g_env rd2) <= 0) by (destruct AA as [NA|(_ & NA & _)]; [left; exact NA|right; eapply no_numbering_env; exact NA]).
  exists (as_read (sees rd1 wt) None recs). split; [eapply raw_back_ready; eassumption|]. split; [rewrite <- SE; eapply raw_back_ready; eassumption|]. split; [|split; [rewrite <- SE|eauto]].
  - destruct (holds_items z _ _ _ _ _ _ _ _ H T N1 SR) as (F & tab & k & items & Q & HI & IT). destruct (IT rd1 eq_refl eq_refl) as [<- I2]. eapply items_read_str; eassumption.
  - destruct (holds_items z _ _ _ _ _ _ _ _ H2 T2 N2 SR) as (F & tab & k & items & Q & HI & IT). destruct (IT rd2 eq_refl eq_refl) as [<- I2]. eapply items_read_str; eassumption.
Qed.

(** The records of a symbol, read by their indices. *)
Theorem C26_records : forall z rd1 cs rs rd2 n dim typ wt recs, extended z rd1 cs rs rd2 -> wrote z rd1 n dim typ wt recs -> some_record dim recs ->
  acronyms_alike z rd1 rd2 wt recs -> exists l, reads_all z rd1 n l /\ reads_all z rd2 n l.
Proof.
  intros z rd1 cs rs rd2 n dim typ wt recs X W SR AA. destruct (wrote_read _ _ _ _ _ _ _ _ _ _ X W SR AA) as (l & R1 & R2 & _). eauto.
Qed.
(** The number of records. *)
Theorem C26_record_counts : forall z rd1 cs rs rd2 n dim typ wt recs, extended z rd1 cs rs rd2 -> wrote z rd1 n dim typ wt recs -> dim <> 0 ->
  same_answer z rd1 rd2 (gdxSymbolInfoX n).
Proof.
  intros z rd1 cs rs rd2 n dim typ wt recs X W ND. pose proof (later_wrote _ _ _ _ _ _ _ _ _ _ X W) as W2.
  destruct (wrote_holds _ _ _ _ _ _ _ W) as (H & _). destruct (wrote_holds _ _ _ _ _ _ _ W2) as (H2 & _).
  destruct (holds_count _ _ _ _ _ _ _ H ND) as (u & t & A1). destruct (holds_count _ _ _ _ _ _ _ H2 ND) as (u2 & t2 & A2).
  assert (N0 : n <> 0). { intros ->. destruct H as (_ & _ & _ & _ & F & tab & k & nm & sy & _ & ZN & _). discriminate ZN. }
  destruct (C26_symbol_texts _ _ _ _ _ _ _ _ _ X N0 A1) as (c & A3).
  assert (U : forall st r r', answers z st (gdxSymbolInfoX n) r -> answers z st (gdxSymbolInfoX n) r' -> r = r').
  { intros st r r' (x & E1) (y & E2). rewrite E1 in E2. injection E2 as -> _. reflexivity. }
  pose proof (U _ _ _ A2 A3) as E. assert (c = zlen recs) by (injection E; congruence). subst c. clear E. intros r. split; intros B.
  - rewrite (U _ _ _ B A1). exact A3.
  - rewrite (U _ _ _ B A3). exact A1.
Qed.
(** The records of a symbol, read by their labels. *)
Theorem C26_string_records : forall z rd1 cs rs rd2 n dim typ wt recs, extended z rd1 cs rs rd2 -> no_rename cs -> wrote z rd1 n dim typ wt recs -> some_record dim recs ->
  acronyms_alike z rd1 rd2 wt recs -> Forall (fun r => Forall (fun k => exists t, label z rd1 k t) (fst r)) recs ->
  exists l, reads_all_str z rd1 n l /\ reads_all_str z rd2 n l.
Proof.
  intros z rd1 cs rs rd2 n dim typ wt recs X NR W SR AA LB. destruct (wrote_read _ _ _ _ _ _ _ _ _ _ X W SR AA) as (l & _ & _ & R1 & R2 & f & ->).
  exists (List.map (labelled (g_dic rd1)) (as_read f None recs)). split; [exact R1|].
  replace (List.map (labelled (g_dic rd1)) (as_read f None recs)) with (List.map (labelled (g_dic rd2)) (as_read f None recs)); [exact R2|].
  clear - LB X NR. generalize (@None (list Z)). induction recs as [|[k v] recs IH]; intros prev; [reflexivity|]. cbn [as_read List.map].
  rewrite (IH (Forall_inv_tail LB)). f_equal. unfold labelled. cbn [fst snd]. f_equal. f_equal. apply map_ext_in. intros i II.
  pose proof (Forall_inv LB) as F. cbv beta in F. cbn [fst] in F. rewrite Forall_forall in F. destruct (F i II) as (t & L). pose proof (C26_labels _ _ _ _ _ _ _ X NR L) as L2.
  apply label_iff in L, L2. unfold key_label. rewrite L, L2. reflexivity.
Qed.

(** ** The hypotheses are met *)

(** A parameter and a comment are added to the file of [PropRead]. *)
Definition ap_open : gst := state_of (exec rle_zlib (gdxOpenAppend (s2z "v.gdx")) rc_closed).
Definition ap_calls : list call :=
  [gdxUELRegisterRawStart; gdxUELRegisterRaw (s2z "dd"); gdxUELRegisterDone; gdxSymbolAddComment 2 (s2z "later");
   gdxDataWriteRawStart (s2z "q") (s2z "added") 1 dt_par 0; gdxDataWriteRaw [2] [dbl_2_5]; gdxDataWriteRaw [4] [dbl_1]; gdxDataWriteDone].
Definition ap_rs : list resp := answer_of (run rle_zlib ap_calls ap_open).
Definition ap_st : gst := state_of (run rle_zlib ap_calls ap_open).
Definition ap_closed : gst := state_of (exec rle_zlib gdxClose ap_st).
Definition ap_file : list Z := match disk_get (e_disk (g_env ap_closed)) (s2z "v.gdx") with Some F => F | None => [] end.
Definition ap_read : gst := state_of (exec rle_zlib (gdxOpenReadEx (s2z "v.gdx") 0) ap_closed).

Lemma rc_reopened : exists rs, reopened rle_zlib (s2z "v.gdx") (s2z "test") 0 (rc_pre ++ rc_seg ++ rc_post) rs rc_st rc_read.
Proof. destruct rc_parts as (rp & rq & _ & _ & _ & RO). eauto. Qed.
Lemma rc_closed_file : closed_file rle_zlib rc_st (s2z "v.gdx") rc_file.
Proof.
  split; [vm_compute; reflexivity|]. exists (ret 0), rc_closed. split; [vm_compute; reflexivity|]. split; [vm_compute; reflexivity|].
  split; [apply counters_fit_test; vm_compute; reflexivity|]. vm_compute. reflexivity.
Qed.
Lemma ap_appending : appending rle_zlib rc_file (s2z "v.gdx") ap_open.
Proof. exists rc_closed. split; [split; vm_compute; reflexivity|]. split; [discriminate|]. split; vm_compute; reflexivity. Qed.
Lemma ap_writes : writes rle_zlib (s2z "v.gdx") (s2z "test") 0 ap_calls ap_rs ap_st.
Proof.
  destruct rc_reopened as (rs & W & _). eapply writes_added; [exact W|exact rc_closed_file|exact ap_appending|apply calls_okb_ok; vm_compute; reflexivity|].
  vm_compute. reflexivity.
Qed.
Lemma ap_reopened : reopened rle_zlib (s2z "v.gdx") (s2z "test") 0 ap_calls ap_rs ap_st ap_read.
Proof.
  split; [exact ap_writes|]. split; [vm_compute; reflexivity|]. exists (ret 0), ap_closed, ap_file, ap_closed, 0.
  split; [vm_compute; reflexivity|]. split; [vm_compute; reflexivity|]. split; [apply counters_fit_test; vm_compute; reflexivity|].
  split; [vm_compute; reflexivity|]. split; [split; vm_compute; reflexivity|]. split; [vm_compute; reflexivity|]. split; [reflexivity|].
  vm_compute. reflexivity.
Qed.
Lemma ap_extended : extended rle_zlib rc_read ap_calls ap_rs ap_read.
Proof.
  destruct rc_reopened as (rs & RO). exists (s2z "v.gdx"), (s2z "test"), 0, (rc_pre ++ rc_seg ++ rc_post), rs, rc_st, rc_file, (s2z "v.gdx"), ap_open, ap_st.
  split; [exact RO|]. split; [exact rc_closed_file|]. split; [exact ap_appending|]. split; [vm_compute; reflexivity|exact ap_reopened].
Qed.
Example C26_case_symbols : symbol rle_zlib ap_read 2 (s2z "v") 2 dt_var.
Proof. refine (C26_symbols _ _ _ _ _ _ _ _ _ ap_extended _). split; [discriminate|]. ans. Qed.
Example C26_case_labels : label rle_zlib ap_read 2 (s2z "B").
Proof.
  refine (C26_labels _ _ _ _ _ _ _ ap_extended _ _).
  - repeat constructor.
  - apply label_iff. vm_compute. reflexivity.
Qed.
Example C26_case_records : exists l, reads_all rle_zlib rc_read 2 l /\ reads_all rle_zlib ap_read 2 l.
Proof.
  refine (C26_records _ _ _ _ _ _ _ _ _ _ ap_extended (wrote_now _ _ _ _ _ _ _ (or_introl rc_wrote)) _ _); [left; discriminate|left; repeat constructor].
Qed.
Example C26_case_added : reads_all rle_zlib ap_read 4 [(1, [2], [dbl_2_5]); (1, [4], [dbl_1])] /\ label rle_zlib ap_read 4 (s2z "dd").
Proof.
  split; [|apply label_iff; vm_compute; reflexivity].
  exists (state_of (exec rle_zlib (gdxDataReadRawStart 4) ap_read)).
  exists (state_of (run rle_zlib (repeat gdxDataReadRaw 2) (state_of (exec rle_zlib (gdxDataReadRawStart 4) ap_read)))).
  eexists. split; [vm_compute; reflexivity|]. split; [vm_compute; reflexivity|]. vm_compute. reflexivity.
Qed.
Example C26_case_comments : comments rle_zlib ap_read 2 [s2z "later"].
Proof.
  assert (K : PropTexts.kept (g_dic rc_read) 2 = []) by (vm_compute; reflexivity).
  assert (A : added 2 ap_calls ap_rs = [s2z "later"]) by (vm_compute; reflexivity).
  pose proof (comments_kept rle_zlib rc_read 2) as C. rewrite K in C. rewrite <- A.
  refine (C26_comments _ _ _ _ _ _ [] ap_extended _ C). repeat constructor. cbn. discriminate.
Qed.
Example C26_case_strings : exists l, reads_all_str rle_zlib rc_read 2 l /\ reads_all_str rle_zlib ap_read 2 l.
Proof.
  refine (C26_string_records _ _ _ _ _ _ _ _ _ _ ap_extended _ (wrote_now _ _ _ _ _ _ _ (or_introl rc_wrote)) _ _ _); [repeat constructor|left; discriminate|left; repeat constructor|].
  assert (L : forall k, In k [1; 2; 3] -> exists t, label rle_zlib rc_read k t).
  { intros k [<-|[<-|[<-|[]]]]; eexists; apply label_iff; vm_compute; reflexivity. }
  unfold rc_records. repeat constructor; cbn [fst]; apply L; cbn; tauto.
Qed.

Print Assumptions C26_opens.
Print Assumptions C26_symbols.
Print Assumptions C26_new_symbols.
Print Assumptions C26_symbol_texts.
Print Assumptions C26_labels.
Print Assumptions C26_element_texts.
Print Assumptions C26_acronyms.
Print Assumptions C26_comments.
Print Assumptions C26_file_version.
Print Assumptions C26_domains.
Print Assumptions C26_domain_names.
Print Assumptions C26_records.
Print Assumptions C26_record_counts.
Print Assumptions C26_string_records.
