(** * Properties of texts, comments and acronym tables: C33, C34, C35, C40 *)

From Coq Require Import String.
From Verif Require Import Base Prim Values Records LinkedData StrHash IntMap Strings AStream BufStream State
  FileImage ApiCore ApiFile ApiWrite ApiRead Api FileFacts BlockFacts StreamFacts OpenFacts DicInv WriteInv WriteTrace
  Footprint SessInv FileFlow Sessions Vocab Reopen Cases PropNames PropMeta.
Open Scope Z_scope.
Open Scope list_scope.

Lemma znth_in : forall {A} (l : list A) i, 0 <= i < zlen l -> exists a, znth l i = Some a.
Proof.
  intros A l i H. unfold znth, zlen in *. destruct (Z.ltb_spec i 0); [lia|]. destruct (nth_error l (Z.to_nat i)) eqn:E; [eauto|].
  apply nth_error_None in E. lia.
Qed.
Lemma znth_In : forall {A} (l : list A) i a, znth l i = Some a -> In a l.
Proof. intros A l i a H. unfold znth in H. destruct (i <? 0); [discriminate|]. eapply nth_error_In. exact H. Qed.

(** ** The clean-up *)

Definition is_quote (c : Z) : Prop := c = 34 \/ c = 39.
(** [u] is [t] with control characters turned into question marks and with the kind of
    quotes, if there are both, made the same. *)
Definition cleaned (t u : str) : Prop :=
  quotable u /\ Forall2 (fun a b => b = a \/ a < 32 /\ b = 63 \/ is_quote a /\ is_quote b) t u /\ (quotable t -> u = t).
(** A text as it may be stored. *)
Definition safe_text (t : str) : Prop := zlen t <= 255 /\ quotable t.

Lemma make_good_chars : forall t q, q = 0 \/ is_quote q ->
  Forall2 (fun a b => b = a \/ a < 32 /\ b = 63 \/ is_quote a /\ is_quote b) t (make_good_from q t).
Proof.
  unfold is_quote. induction t as [|c t IH]; intros q Q; cbn [make_good_from]; [constructor|].
  destruct (Z.eqb_spec c 34) as [->|N1]; [|destruct (Z.eqb_spec c 39) as [->|N2]]; cbn [orb].
  - constructor; [|apply IH; destruct (q =? 0) eqn:E; lia]. destruct (q =? 0) eqn:E; [auto|]. right; right. lia.
  - constructor; [|apply IH; destruct (q =? 0) eqn:E; lia]. destruct (q =? 0) eqn:E; [auto|]. right; right. lia.
  - constructor; [|apply IH; exact Q]. destruct (c <? 32) eqn:E; [right; left; lia|auto].
Qed.
Lemma make_good_cleaned : forall t, cleaned t (make_good t).
Proof.
  intros t. split; [apply make_good_quotable|]. split; [|apply make_good_id]. apply make_good_chars. auto.
Qed.
Lemma zlen_firstn : forall {A} n (l : list A), zlen (firstn n l) <= Z.of_nat n.
Proof. intros A n l. unfold zlen. rewrite firstn_length. lia. Qed.
Lemma make_cut_safe : forall t, safe_text (make_good (cut255 t)).
Proof.
  intros t. split; [|apply make_good_quotable]. unfold make_good, zlen. rewrite make_good_length. apply (zlen_firstn 255 t).
Qed.
Lemma make_expl_safe : forall t, safe_text (make_good (assign_expl t)).
Proof.
  intros t. split; [|apply make_good_quotable]. unfold make_good, zlen. rewrite make_good_length. apply assign_expl_length.
Qed.

(** ** C33: element texts *)

Lemma writing_texts : forall z cs st, in_writing z cs st -> (exists l, d_texts (g_dic st) = Some l) /\ texts_inv (g_dic st).
Proof.
  intros z cs st W. split; revert cs st W.
  - apply (writing_dic z (fun d => exists l, d_texts d = Some l)).
    + intros st C. apply created_dic in C. destruct C as (_ & _ & _ & _ & T & _). eauto.
    + intros np d _ _. eexists. reflexivity.
    + intros c d d' A (l & H). destruct (texts_grow_step _ _ _ A l H) as (l' & H' & _). eauto.
  - apply (writing_dic z texts_inv).
    + intros st C. apply created_dic in C. destruct C as (_ & _ & _ & _ & T & _). intros l H. rewrite T in H. injection H as <-. apply (distinct_snoc false (@nil (str * Z)) [] 0); [apply distinct_nil|reflexivity].
    + intros np d DI I l H. destruct (di_texts _ _ DI) as (l0 & L0 & _). specialize (I l0 L0). cbn [d_texts loaded contents_of c_texts] in H. unfold texts_of in H. rewrite L0 in H. injection H as <-.
      intros i j a b H1 H2 E. destruct (map_pair_znth _ _ _ _ H1) as (a' & A1 & A2 & _). destruct (map_pair_znth _ _ _ _ H2) as (b' & B1 & B2 & _). eapply I; [exact A1|exact B1|]. rewrite <- A2, <- B2. exact E.
    + intros c d d'. apply texts_step.
Qed.

(** Adding a text answers its number. *)
Theorem C33_adding_a_text : forall z cs st t r st', in_writing z cs st -> exec z (gdxAddSetText t) st = Done (r, st') ->
  exists n u, r = ret_i 1 [n] /\ elem_text z st' n u /\ cleaned (firstn 255 t) u.
Proof.
  intros z cs st t r st' W E. destruct (writing_texts _ _ _ W) as ((l & L) & TI). cbn [exec] in E. unfold add_set_text in E. rewrite L in E.
  destruct (sl_add false l _ 0) as [l' n] eqn:SA. injection E as <- <-. exists n, (make_good (cut255 t)). split; [reflexivity|].
  split; [|apply make_good_cleaned]. apply elem_text_iff. cbn [upd_dic upd g_dic set_g_dic d_texts set_d_texts].
  destruct (sl_add_cases _ _ _ _ _ _ SA) as [(-> & F)|(-> & F & ->)].
  - apply sl_find_Some in F. destruct F as ([u k] & E & S). exists l, k. split; [reflexivity|]. apply same_text_spec in S. cbn [fst] in S. cbn [norm] in S. congruence.
  - exists (l ++ [(make_good (cut255 t), 0)]), 0. split; [reflexivity|]. apply znth_snoc. auto.
Qed.

(** The number keeps leading to the text, whatever is called after that. *)
Theorem C33_texts_stay : forall z cs a b n t, during z cs a b -> elem_text z a n t -> elem_text z b n t.
Proof.
  intros z cs a b n t D E. rewrite elem_text_iff in *. destruct E as (l & k & L & E).
  assert (G : texts_grow (g_dic a) (g_dic b)).
  { eapply (during_dic z (fun d => texts_grow (g_dic a) d)); [|exact D|apply texts_grow_refl]. intros c d d' _ A G. eapply texts_grow_trans; [exact G|]. eapply texts_grow_step. exact A. }
  destruct (G l L) as (l' & L' & K). destruct (K _ _ E) as ([u k'] & E' & F & _). cbn [fst] in F. subst u. eauto.
Qed.

(** Equal texts share one number. *)
Theorem C33_equal_texts_share : forall z cs st i j t, in_writing z cs st -> elem_text z st i t -> elem_text z st j t -> i = j.
Proof.
  intros z cs st i j t W A B. destruct (writing_texts _ _ _ W) as (_ & TI). rewrite elem_text_iff in *.
  destruct A as (l & k & L & A), B as (l2 & k2 & L2 & B). replace l2 with l in * by congruence. eapply (TI l L); [exact A|exact B|]. apply same_text_spec. reflexivity.
Qed.

(** After closing and reopening, too. *)
Theorem C33_texts_after_reopening : forall z name prod compr cs rs st st2 n t, reopened z name prod compr cs rs st st2 ->
  elem_text z st n t <-> elem_text z st2 n t.
Proof. exact C20_texts_are_found_again. Qed.

(** ** C34: all texts are safe *)

Theorem C34_element_texts_are_safe : forall z cs st n t, in_writing z cs st -> elem_text z st n t -> safe_text t.
Proof.
  intros z cs st n t W E.
  apply elem_text_iff in E. destruct E as (l & k & L & E).
  assert (I : forall l, d_texts (g_dic st) = Some l -> forall i e, znth l i = Some e -> safe_text (fst e)).
  { clear - W. revert cs st W. apply (writing_dic z (fun d => forall l, d_texts d = Some l -> forall i e, znth l i = Some e -> safe_text (fst e))).
    3: { intros c d d' A I l1 L1 i e X. destruct (texts_cases _ _ _ A) as [Q|[(l0 & u & x & _ & -> & Q & F & Q')|(l0 & m & u & v & _ & Q & F & Q')]].
      + eapply I; [rewrite <- Q; exact L1|exact X].
      + rewrite Q' in L1. injection L1 as <-. apply znth_snoc in X. destruct X as [X|[_ ->]]; [eapply I; [exact Q|exact X]|]. apply make_cut_safe.
      + rewrite Q' in L1. injection L1 as <-. apply znth_zset in X. destruct X as [[-> ->]|[_ X]]; [apply (I _ Q _ _ F)|eapply I; [exact Q|exact X]]. }
    2: { intros np d DI I l H i e X. destruct (di_texts _ _ DI) as (l0 & L0 & _). specialize (I l0 L0). cbn [d_texts loaded contents_of c_texts] in H. unfold texts_of in H. rewrite L0 in H. injection H as <-.
      destruct (map_pair_znth _ _ _ _ X) as (a' & A1 & A2 & _). rewrite A2. exact (I _ _ A1). }
    - intros st C l1 L1 i e X. apply created_dic in C. destruct C as (_ & _ & _ & _ & T & _). rewrite T in L1. injection L1 as <-. assert (e = ([], 0)).
      { pose proof (znth_Some _ _ _ X) as R. unfold zlen in R. cbn in R. assert (i = 0) by lia. subst i. injection X as <-. reflexivity. }
      subst e. split; [cbn; lia|]. split; [constructor|]. intros [[] _]. }
  exact (I _ L _ _ E).
Qed.

Lemma ident_safe : forall nm, wf_ident nm -> Forall (fun c => 32 <= c /\ c <> 34 /\ c <> 39) nm.
Proof.
  intros nm (_ & c & r & -> & L & F). constructor.
  - unfold letter in L. lia.
  - eapply Forall_impl; [|exact F]. intros a H. unfold ident_char, letter in H. lia.
Qed.
Lemma alias_safe : forall nm t, wf_ident nm -> alias_text nm = Done t -> safe_text t.
Proof.
  intros nm t W H. pose proof (ident_safe _ W) as S. destruct W as (L & _). unfold alias_text in H. cbv zeta in H.
  assert (P1 : zlen (s2z "Aliased with ") = 13) by reflexivity.
  assert (P2 : Forall (fun c => 32 <= c /\ c <> 34 /\ c <> 39) (s2z "Aliased with ")) by (cbn; repeat constructor; lia).
  generalize dependent (s2z "Aliased with "). intros p H P1 P2.
  rewrite zlen_app, P1 in H. destruct (Z.leb_spec (13 + zlen nm) 255); [|lia]. injection H as <-.
  split; [rewrite zlen_app, P1; lia|].
  assert (F : Forall (fun c => 32 <= c /\ c <> 34 /\ c <> 39) (p ++ nm)) by (apply Forall_app; auto).
  rewrite Forall_forall in F. split; [apply Forall_forall; intros c I; apply (F c I)|]. intros [A _]. apply F in A. lia.
Qed.

(** Whatever was called, gdxSymbolInfoX reports a safe text for every symbol. *)
Theorem C34_explanatory_texts_are_safe : forall z cs st n count uinfo t, in_writing z cs st -> n <> 0 ->
  answers z st (gdxSymbolInfoX n) (ret_is 1 [count; uinfo] [t]) -> safe_text t.
Proof.
  intros z cs st n count uinfo t W N (st' & H). pose proof (writing_syms _ _ _ W) as SI. pose proof (writing_names _ _ _ W) as [_ NI].
  cbn [exec] in H. unfold symbol_info_x in H. destruct (Z.eqb_spec n 0); [contradiction|].
  destruct (get_sym (g_dic st) n) as [s|] eqn:G; [|discriminate]. injection H as _ _ <- _.
  destruct (SI _ _ G) as [(_ & _ & x & ->)|[(_ & _ & _ & ->)|(_ & _ & s' & nm & _ & NM & _ & _ & AT)]].
  - apply make_expl_safe.
  - split; [cbn; lia|]. split; [cbn; repeat constructor; lia|]. cbn. intuition lia.
  - eapply alias_safe; [|exact AT]. apply good_ident_spec. unfold sym_name in NM. destruct (znth _ _) as [e|] eqn:E; [|discriminate]. injection NM as <-. exact (NI _ _ E).
Qed.

(** A text that is safe is stored unchanged by the call that starts a symbol; a longer
    one is cut. *)
Theorem C34_starting_stores_the_text : forall z cs st c name text dim typ uinfo st' k, in_writing z cs st -> starting c name text dim typ uinfo ->
  symbols z st k -> exec z c st = Done (ret 1, st') ->
  exists count t, answers z st' (gdxSymbolInfoX (k + 1)) (ret_is 1 [count; uinfo] [t]) /\ safe_text t /\ (safe_text text -> t = text) /\
    (zlen text <= 255 -> cleaned text t).
Proof.
  intros z cs st c name text dim typ uinfo st' k W S K E. apply symbols_iff in K. subst k.
  destruct (start_effect _ _ _ _ _ _ _ _ _ _ S E) as [(H & _)|(_ & _ & s & (F1 & F2 & F3 & F4 & _) & D)]; [discriminate H|].
  unfold answers. cbn [exec]. unfold symbol_info_x. pose proof (zlen_nonneg (d_names (g_dic st))) as P. unfold sym_count. destruct (Z.eqb_spec (zlen (d_names (g_dic st)) + 1) 0); [lia|].
  unfold get_sym. rewrite D. cbn [d_names set_d_names]. replace (zlen (d_names (g_dic st)) + 1 - 1) with (zlen (d_names (g_dic st))) by lia.
  rewrite znth_app_r by lia. rewrite Z.sub_diag. change (znth [(name, s)] 0) with (Some (name, s)). cbn [option_map snd].
  eexists _, _. split; [rewrite F3; eauto|]. rewrite F4. split; [apply make_expl_safe|]. split.
  - intros [L Q]. unfold assign_expl. destruct (Z.ltb_spec (zlen text) 256); [|lia]. apply make_good_id. exact Q.
  - intros L. unfold assign_expl. destruct (Z.ltb_spec (zlen text) 256); [|lia]. apply make_good_cleaned.
Qed.
(** The text stays, before and after reopening. *)
Theorem C34_texts_stay : forall z cs a b n count uinfo t, during z cs a b -> n <> 0 -> answers z a (gdxSymbolInfoX n) (ret_is 1 [count; uinfo] [t]) ->
  exists count', answers z b (gdxSymbolInfoX n) (ret_is 1 [count'; uinfo] [t]).
Proof.
  intros z cs a b n count uinfo t D N (a' & H). pose proof (during_grow _ _ _ _ D) as G. unfold answers. cbn [exec] in *. unfold symbol_info_x in *.
  destruct (Z.eqb_spec n 0); [contradiction|]. destruct (get_sym (g_dic a) n) as [s|] eqn:GS; [|discriminate]. injection H as _ <- <- _.
  apply get_sym_znth in GS. destruct GS as (nm & Z1). destruct (G _ _ Z1) as ([nm' s'] & Z2 & _ & K). cbn [snd] in K. destruct K as (_ & _ & K3 & K4 & _).
  unfold get_sym. rewrite Z2. cbn [option_map snd]. rewrite K3, K4. eauto.
Qed.

(** ** C35: comments *)

(** The comments of symbol [n], as gdxSymbolGetComment reports them. *)
Definition comments (z : zlib) (st : gst) (n : Z) (l : list str) : Prop :=
  forall k t, answers z st (gdxSymbolGetComment n k) (ret_s 1 [t]) <-> znth l (k - 1) = Some t.

(** The comments that a program has added to symbol [n], with their first 255 characters. *)
Fixpoint added (n : Z) (cs : list call) (rs : list resp) : list str :=
  match cs, rs with
  | gdxSymbolAddComment k t :: cs', r :: rs' => if (k =? n) && (r_code r =? 1) then firstn 255 t :: added n cs' rs' else added n cs' rs'
  | _ :: cs', _ :: rs' => added n cs' rs'
  | _, _ => []
  end.
(** Every added comment names its symbol (a number of zero or less means the symbol that
    is being written). *)
Definition names_its_symbol (c : call) : Prop := match c with gdxSymbolAddComment k _ => 1 <= k | _ => True end.

Definition kept (d : dic) (n : Z) : list str := match get_sym d n with Some s => sy_comments s | None => [] end.
Lemma comments_kept : forall z st n, comments z st n (kept (g_dic st) n).
Proof.
  intros z st n k t. unfold answers, kept. cbn [exec]. unfold symbol_get_comment. destruct (get_sym _ _) as [s|].
  - destruct (znth _ _) as [u|]; split.
    + intros (x & H). injection H as -> _. reflexivity.
    + intros H. injection H as ->. eauto.
    + intros (x & H). discriminate.
    + discriminate.
  - split; [intros (x & H); discriminate|]. intros H. apply znth_Some in H. unfold zlen in H. cbn in H. lia.
Qed.
Lemma kept_step : forall c d d' n, (forall k t, c <> gdxSymbolAddComment k t) -> datom c d d' -> kept d' n = kept d n.
Proof.
  intros c d d' n N A. unfold kept, get_sym. destruct (names_cases _ _ _ A) as [->|[(name & s & _ & _ & _ & (NS & _) & ->)|(k & e & s & E & K & ->)]]; [reflexivity| |].
  - destruct (znth (d_names d) (n - 1)) as [x|] eqn:Z; cbn [option_map].
    + rewrite znth_app_l by (apply znth_Some in Z; lia). rewrite Z. reflexivity.
    + destruct (znth (d_names d ++ [(name, s)]) (n - 1)) as [y|] eqn:Y; [|reflexivity]. apply znth_snoc in Y. destruct Y as [Y|[_ ->]]; [congruence|exact NS].
  - destruct (Z.eq_dec (n - 1) (k - 1)) as [->|NE].
    + rewrite znth_zset_eq by (eapply znth_Some; exact E). rewrite E. cbn [option_map snd].
      destruct K as [(_ & _ & _ & _ & _ & K & _)|[(ids & v & _ & ->)|[(ids & ns & _ & ->)|(j & t & C & _)]]]; [exact K|reflexivity|reflexivity|]. exfalso. exact (N _ _ C).
    + rewrite znth_zset_neq by congruence. reflexivity.
Qed.
Lemma kept_comment : forall z k t st r st' n, 1 <= k -> exec z (gdxSymbolAddComment k t) st = Done (r, st') ->
  kept (g_dic st') n = kept (g_dic st) n ++ (if (k =? n) && (r_code r =? 1) then [firstn 255 t] else []).
Proof.
  intros z k t st r st' n K E. cbn [exec] in E. unfold symbol_add_comment, checked, refuse in E.
  destruct (mode_in _ _).
  2: { injection E as <- <-. rewrite Bool.andb_false_r, app_nil_r. reflexivity. }
  destruct (Z.leb_spec k 0); [lia|]. cbn [obind] in E. destruct (Z.leb_spec k (sym_count (g_dic st))) as [L|L].
  2: { unfold fail_with in E. injection E as <- <-. rewrite Bool.andb_false_r, app_nil_r. reflexivity. }
  unfold okay in E. injection E as <- <-. cbn [upd_dic upd g_dic set_g_dic]. change (r_code (ret 1) =? 1) with true. rewrite Bool.andb_true_r. unfold upd_sym, kept, get_sym.
  destruct (znth (d_names (g_dic st)) (k - 1)) as [e|] eqn:Z.
  2: { exfalso. destruct (znth_in (d_names (g_dic st)) (k - 1)) as (e & X); [unfold sym_count in L; lia|congruence]. }
  cbn [d_names set_d_names]. destruct (Z.eqb_spec k n) as [<-|NE].
  - rewrite znth_zset_eq by (eapply znth_Some; exact Z). rewrite Z. reflexivity.
  - rewrite znth_zset_neq by lia. rewrite app_nil_r. reflexivity.
Qed.
Lemma run_kept : forall z cs rs a b n, forallb session_call cs = true -> Forall call_ok cs -> Forall names_its_symbol cs -> run z cs a = Done (rs, b) ->
  kept (g_dic b) n = kept (g_dic a) n ++ added n cs rs.
Proof.
  induction cs as [|c cs IH]; intros rs a b n S O K R; cbn [run] in R.
  - injection R as <- <-. symmetry. apply app_nil_r.
  - destruct (exec z c a) as [[r a1]|] eqn:E; [|discriminate]. cbn [obind] in R. destruct (run z cs a1) as [[rs1 b1]|] eqn:R1; [|discriminate]. cbn [obind] in R. injection R as <- <-.
    cbn [forallb] in S. apply Bool.andb_true_iff in S. destruct S as [S1 S2]. inversion O; subst. inversion K; subst.
    rewrite (IH rs1 a1 b1 n); try assumption.
    assert (D : (exists k t, c = gdxSymbolAddComment k t) \/ forall k t, c <> gdxSymbolAddComment k t).
    { destruct c; try (right; intros; discriminate). left. eauto. }
    destruct D as [(k & t & ->)|D].
    + rewrite (kept_comment z k t a r a1 n); [|assumption|exact E]. rewrite <- app_assoc. f_equal. cbn [added]. destruct (_ && _); reflexivity.
    + replace (added n (c :: cs) (r :: rs1)) with (added n cs rs1) by (destruct c; try reflexivity; exfalso; eapply D; reflexivity). f_equal.
      symmetry. eapply (call_dic z (fun d => kept (g_dic a) n = kept d n) c r a a1); try eassumption; [|reflexivity].
      intros d d' A ->. symmetry. eapply kept_step; eassumption.
Qed.

(** After any write history, every symbol has the comments that were added to it, in order. *)
Theorem C35_comments_are_kept : forall z cs rs st0 st n, created z st0 -> forallb session_call cs = true -> Forall call_ok cs -> Forall names_its_symbol cs ->
  run z cs st0 = Done (rs, st) -> comments z st n (added n cs rs).
Proof.
  intros z cs rs st0 st n C S O K R. pose proof (run_kept z cs rs st0 st n S O K R) as H. replace (kept (g_dic st0) n) with (@nil str) in H.
  - cbn [app] in H. rewrite <- H. apply comments_kept.
  - unfold kept, get_sym. apply created_dic in C. destruct C as (-> & _). destruct (znth [] (n - 1)) eqn:Z; [|reflexivity]. apply znth_Some in Z. unfold zlen in Z. cbn in Z. lia.
Qed.

Theorem C35_comments_are_found_again : forall z name prod compr cs rs st st2 n, reopened z name prod compr cs rs st st2 ->
  writes_new z name prod compr cs rs st -> Forall names_its_symbol cs -> comments z st2 n (added n cs rs).
Proof.
  intros z name prod compr cs rs st st2 n RO W K k t.
  pose proof (C20_metadata_is_found_again _ _ _ _ _ _ _ _ (gdxSymbolGetComment n k) RO I (ret_s 1 [t])) as SA. etransitivity; [symmetry; exact SA|]. clear SA.
  destruct W as (st0 & sta & ra & O & RC & PO & F & R). destruct (keeps_all _ F) as [F1 F2]. revert k t.
  eapply C35_comments_are_kept; [|exact F1|exact F2|exact K|exact R]. exists st0, name, prod, compr, ra. auto.
Qed.

(** ** C40: acronym tables *)

Lemma writing_acros : forall z cs st, in_new_writing z cs st -> acros_inv (g_dic st).
Proof.
  intros z cs st (st0 & C & D). eapply (during_dic z acros_inv); [|exact D|].
  - intros c d d' _. apply acros_step.
  - apply created_dic in C. destruct C as (_ & _ & _ & _ & _ & C & _). intros i j a b H. rewrite C in H. apply znth_Some in H. unfold zlen in H. cbn in H. lia.
Qed.
Lemma writing_nn : forall z cs st, in_writing z cs st -> d_nn (g_dic st) = true.
Proof.
  intros z. apply (writing_dic z (fun d => d_nn d = true)); [intros st0 C; apply created_dic in C; tauto|reflexivity|].
  intros c d d' A <-. apply (flags_keep _ _ _ A).
Qed.

(** No two acronyms share their index, or their name in any letter case. *)
Theorem C40_acronyms_are_unique : forall z cs st i j a x b y, in_new_writing z cs st -> acronym z st i a x -> acronym z st j b y ->
  x = y \/ a <> [] /\ upper a = upper b -> i = j.
Proof.
  intros z cs st i j a x b y W A B E. apply writing_acros in W. apply acronym_znth in A, B.
  destruct A as (p & A & -> & ->), B as (q & B & -> & ->). assert (i - 1 = j - 1); [|lia]. eapply W; [exact A|exact B|].
  destruct E as [E|[E1 E2]]; [left; exact E|right]. split; [exact E1|]. apply same_text_spec. exact E2.
Qed.

(** What gdxAcronymAdd does: it refuses a name or an index that is taken (unless both are
    those of one entry), and otherwise adds an entry with the next number. *)
Lemma acro_check_cases : forall name ix l k, 0 <= k ->
  match acro_check name ix l k with
  | AcFree => forall i a, znth l i = Some a -> upper (ac_name a) <> upper name /\ ac_map a <> ix
  | AcSame n => exists a, znth l (n - k) = Some a /\ upper (ac_name a) = upper name /\ ac_map a = ix
  | AcBad => exists i a, znth l i = Some a /\ (upper (ac_name a) = upper name /\ ac_map a <> ix \/ upper (ac_name a) <> upper name /\ ac_map a = ix)
  end.
Proof.
  induction l as [|a l IH]; intros k K; cbn [acro_check].
  - intros i b H. apply znth_Some in H. unfold zlen in H. cbn in H. lia.
  - pose proof (same_text_spec true (ac_name a) name) as ST. destruct (same_text true (ac_name a) name) eqn:S.
    + destruct (Z.eqb_spec (ac_map a) ix) as [M|M].
      * exists a. rewrite Z.sub_diag. split; [reflexivity|]. split; [apply ST; reflexivity|exact M].
      * exists 0, a. split; [reflexivity|]. left. split; [apply ST; reflexivity|exact M].
    + assert (NS : upper (ac_name a) <> upper name) by (intros U; apply ST in U; discriminate). destruct (Z.eqb_spec (ac_map a) ix) as [M|M].
      * exists 0, a. split; [reflexivity|]. right. auto.
      * specialize (IH (k + 1) ltac:(lia)). change (a :: l) with ([a] ++ l). destruct (acro_check name ix l (k + 1)) as [|n|].
        -- intros i b H. destruct (Z.eq_dec i 0) as [->|NE]; [injection H as <-; auto|]. pose proof (znth_Some _ _ _ H). rewrite znth_app_r in H by (cbn; lia). eapply IH. exact H.
        -- destruct IH as (b & H & R). exists b. split; [|exact R]. pose proof (znth_Some _ _ _ H). rewrite znth_app_r by (cbn; lia). rewrite <- H. f_equal. cbn. lia.
        -- destruct IH as (i & b & H & R). exists (i + 1), b. split; [|exact R]. pose proof (znth_Some _ _ _ H). rewrite znth_app_r by (cbn; lia). rewrite <- H. f_equal. cbn. lia.
Qed.

Definition acronyms (z : zlib) (st : gst) (k : Z) : Prop := answers z st gdxAcronymCount (ret k).
Lemma acronyms_iff : forall z st k, acronyms z st k <-> k = zlen (d_acros (g_dic st)).
Proof.
  intros z st k. unfold acronyms, answers. cbn [exec]. unfold acronym_count. split.
  - intros (x & H). injection H as <- _. reflexivity.
  - intros ->. eauto.
Qed.
Definition same_acronyms (z : zlib) (a b : gst) : Prop := same_answer z a b gdxAcronymCount /\ forall n, same_answer z a b (gdxAcronymGetInfo n).
Lemma same_acros : forall z a b, d_acros (g_dic b) = d_acros (g_dic a) -> d_nn (g_dic b) = d_nn (g_dic a) -> same_acronyms z a b.
Proof.
  intros z a b E N. split; [|intros n]; intros r; unfold answers; cbn [exec]; [unfold acronym_count|unfold acronym_get_info]; rewrite E, ?N.
  - split; intros (x & H); injection H as <- _; eauto.
  - destruct (negb _); [split; intros (x & H); discriminate|]. destruct (znth _ _) as [y|]; [|split; intros (x & H); injection H as <- _; eauto].
    destruct (_ && _); [|split; intros (x & H); discriminate]. split; intros (x & H); injection H as <- _; eauto.
Qed.
(** Names and texts within the sizes of the buffers that gdxAcronymGetInfo fills. *)
Definition sizes_ok (a : str) (t : str) : Prop := zlen a <= 63 /\ zlen t <= 255.
Definition acronyms_fit (st : gst) : Prop := Forall (fun a => sizes_ok (ac_name a) (ac_text a)) (d_acros (g_dic st)).

Theorem C40_adding_an_acronym : forall z cs st name text ix r st' k, in_writing z cs st -> acronyms z st k ->
  exec z (gdxAcronymAdd name text ix) st = Done (r, st') ->
  (r = ret (k + 1) /\ acronyms z st' (k + 1) /\ (sizes_ok name text -> exists t, acronym_is z st' (k + 1) name t ix /\ cleaned text t) /\
   (forall n nm t x, acronym_is z st n nm t x -> acronym_is z st' n nm t x /\ upper nm <> upper name /\ x <> ix)) \/
  (same_acronyms z st st' /\ (acronyms_fit st -> exists n nm t x, acronym_is z st n nm t x /\
     (r = ret (n - 1) /\ upper nm = upper name /\ x = ix \/
      r = ret (-1) /\ (upper nm = upper name /\ x <> ix \/ upper nm <> upper name /\ x = ix)))).
Proof.
  intros z cs st name text ix r st' k W K E. pose proof (writing_nn _ _ _ W) as NN. apply acronyms_iff in K. subst k.
  cbn [exec] in E. unfold acronym_add in E. rewrite NN in E. cbn [negb] in E.
  assert (GI : acronyms_fit st -> forall n a, znth (d_acros (g_dic st)) n = Some a -> acronym_is z st (n + 1) (ac_name a) (ac_text a) (ac_map a)).
  { intros AF n a Z. exists st. cbn [exec]. unfold acronym_get_info. rewrite NN. cbn [negb]. replace (n + 1 - 1) with n by lia. rewrite Z.
    unfold acronyms_fit in AF. rewrite Forall_forall in AF. destruct (AF a) as [A1 A2]; [eapply znth_In; exact Z|]. replace (_ && _) with true by lia. reflexivity. }
  pose proof (acro_check_cases name ix (d_acros (g_dic st)) 0 (Z.le_refl 0)) as C. destruct (acro_check _ _ _ _) as [|n|].
  - injection E as <- <-. left. set (a := mkAcro name (make_good text) ix ix false).
    set (st' := upd_dic _ st). assert (Q : d_acros (g_dic st') = d_acros (g_dic st) ++ [a]) by reflexivity. assert (NN' : d_nn (g_dic st') = true) by exact NN. clearbody st'.
    split; [reflexivity|]. split; [apply acronyms_iff; rewrite Q, zlen_app; reflexivity|]. split.
    + intros [S1 S2]. exists (make_good text). split; [|apply make_good_cleaned]. exists st'. cbn [exec]. unfold acronym_get_info. rewrite NN', Q. cbn [negb].
      replace (zlen (d_acros (g_dic st)) + 1 - 1) with (zlen (d_acros (g_dic st))) by lia. rewrite znth_app_r by lia. rewrite Z.sub_diag.
      change (znth [a] 0) with (Some a). subst a. cbn [ac_name ac_text ac_map]. unfold make_good at 1. unfold zlen at 2. rewrite make_good_length. fold (zlen text).
      replace (_ && _) with true by lia. reflexivity.
    + intros m nm t x (y & H). cbn [exec] in H. unfold acronym_get_info in H. rewrite NN in H. cbn [negb] in H.
      destruct (znth (d_acros (g_dic st)) (m - 1)) as [b|] eqn:Z; [|discriminate]. destruct (_ && _) eqn:B; [|discriminate]. injection H as <- <- <- _.
      split; [|eapply C; exact Z]. exists st'. cbn [exec]. unfold acronym_get_info. rewrite NN', Q. cbn [negb]. rewrite znth_app_l by (apply znth_Some in Z; lia).
      rewrite Z, B. reflexivity.
  - injection E as <- <-. right. split; [apply same_acros; reflexivity|]. intros AF. destruct C as (a & Z & C1 & C2). rewrite Z.sub_0_r in Z.
    exists (n + 1), (ac_name a), (ac_text a), (ac_map a). split; [apply GI; assumption|]. left. replace (n + 1 - 1) with n by lia. auto.
  - injection E as <- <-. right. split; [apply same_acros; reflexivity|]. intros AF. destruct C as (i & a & Z & C).
    exists (i + 1), (ac_name a), (ac_text a), (ac_map a). split; [apply GI; assumption|]. right. auto.
Qed.

(** An acronym keeps its number and its index; its name and text only change by
    gdxAcronymSetInfo. *)
Definition no_acronym_info (cs : list call) : Prop := forall n a t x, ~ In (gdxAcronymSetInfo n a t x) cs.
Theorem C40_acronyms_stay : forall z cs a b n nm t x, during z cs a b -> no_acronym_info cs -> acronym_is z a n nm t x -> acronym_is z b n nm t x.
Proof.
  intros z cs a b n nm t x D N (y & H). cbn [exec] in H. unfold acronym_get_info in H. destruct (d_nn (g_dic a)) eqn:NN; [|discriminate]. cbn [negb] in H.
  destruct (znth _ _) as [p|] eqn:Z; [|discriminate]. destruct (_ && _) eqn:B; [|discriminate]. injection H as <- <- <- _.
  assert (G : d_nn (g_dic b) = true /\ exists q, znth (d_acros (g_dic b)) (n - 1) = Some q /\ ac_name q = ac_name p /\ ac_text q = ac_text p /\ ac_map q = ac_map p).
  { eapply (during_dic z (fun d => d_nn d = true /\ exists q, znth (d_acros d) (n - 1) = Some q /\ ac_name q = ac_name p /\ ac_text q = ac_text p /\ ac_map q = ac_map p)); [|exact D|eauto 10].
    intros c d d' I A (F & q & Q & Q1 & Q2 & Q3). split; [rewrite <- F; apply (flags_keep _ _ _ A)|].
    destruct (acros_cases _ _ _ A) as [->|[(v & _ & _ & ->)|(m & v & w & E & K1 & K2 & ->)]]; [eauto 10| |].
    - exists q. split; [apply znth_snoc; auto|auto].
    - destruct (Z.eq_dec (n - 1) m) as [<-|NE].
      + exists w. rewrite znth_zset_eq by (eapply znth_Some; exact E). replace q with v in * by congruence. split; [reflexivity|].
        destruct K2 as [[K2 K3]|((u & ix & ->) & _)]; [repeat split; congruence|]. exfalso. eapply N. exact I.
      + exists q. rewrite znth_zset_neq by congruence. auto. }
  destruct G as (NN' & q & Q & E1 & E2 & E3). exists b. cbn [exec]. unfold acronym_get_info. rewrite NN', Q. cbn [negb]. rewrite E1, E2, E3, B. reflexivity.
Qed.

Theorem C40_acronyms_after_reopening : forall z name prod compr cs rs st st2 n nm text ix, reopened z name prod compr cs rs st st2 ->
  nm <> [] -> acronym_is z st n nm text ix -> acronym_is z st2 n nm text ix.
Proof. exact C20_acronyms_are_found_again. Qed.

(** ** C49: symbol names and acronym names *)

(** gdxAcronymAdd does not look at the symbol names. *)
Theorem C49_disjoint_refuted : exists cs st name ix dim typ, in_new_writing rle_zlib cs st /\ symbol rle_zlib st 1 name dim typ /\ acronym rle_zlib st 2 name ix.
Proof.
  exists (case_calls ++ [gdxAcronymAdd (s2z "I") [] 9]), (state_of (run rle_zlib (case_calls ++ [gdxAcronymAdd (s2z "I") [] 9]) case_start)), (s2z "I"), 9, 1, dt_set.
  split; [|split; [split; [discriminate|ans]|eexists; ans]].
  exists case_start. split; [exists case_object, (s2z "f.gdx"), (s2z "a test"), 1, (ret_i 1 [0]); split; [vm_compute; reflexivity|reflexivity]|].
  eapply during_test; [vm_compute; reflexivity|]. vm_compute. reflexivity.
Qed.

Lemma names_new : forall c d d', datom c d d' -> forall k e, znth (d_names d') k = Some e ->
  (exists e0, znth (d_names d) k = Some e0 /\ fst e0 = fst e) \/
  (In (fst e) (names_of c) /\ (forall nm, In nm (List.map ac_name (d_acros d)) -> upper nm <> upper (fst e)) /\ d_acros d' = d_acros d).
Proof.
  intros c d d' A k e E.
  assert (U : forall n f, znth (d_names (upd_sym n f d)) k = Some e -> exists e0, znth (d_names d) k = Some e0 /\ fst e0 = fst e).
  { intros n f X. unfold upd_sym in X. destruct (znth (d_names d) (n - 1)) as [[a b]|] eqn:Z; [|eauto]. cbn [d_names set_d_names] in X. apply znth_zset in X.
    destruct X as [[-> ->]|[_ X]]; eauto. }
  destruct A; cbn [d_names set_d_names set_d_uels set_d_usr set_d_status set_d_texts set_d_acros set_d_filts set_d_dstrs] in E; eauto.
  - apply znth_snoc in E. destruct E as [E|[_ ->]]; [eauto|]. right. cbn [fst]. split; [assumption|]. split; [|reflexivity].
    apply acro_named_none. assumption.
  - left. unfold uel_add in E. destruct (sl_add _ _ _ _) in E. eauto.
  - left. unfold map_status in E. destruct (d_status d); cbn in E; eauto.
Qed.

(** The names differ as long as gdxAcronymAdd is given no name that is also given to a
    symbol. *)
Theorem C49_disjoint_partial : forall z cs st i j a da ta b ix, in_new_writing z cs st ->
  (forall c nm t k, In c cs -> In (gdxAcronymAdd nm t k) cs -> forall n, In n (names_of c) -> upper n <> upper nm) ->
  symbol z st i a da ta -> acronym z st j b ix -> upper a <> upper b.
Proof.
  intros z cs st i j a da ta b ix W NC S A. pose proof W as W0. pose proof S as SY. apply symbol_iff in S. destruct S as (s & S & _). apply acronym_znth in A. destruct A as (ac & A & -> & _).
  destruct W as (st0 & C & D). apply created_dic in C. destruct C as (C1 & _ & _ & _ & _ & C2 & _).
  set (I := fun d => (forall k e, znth (d_names d) k = Some e -> exists c, In c cs /\ In (fst e) (names_of c)) /\
                     (forall k e m x, znth (d_names d) k = Some e -> znth (d_acros d) m = Some x -> ac_name x = [] \/ upper (fst e) <> upper (ac_name x))).
  assert (I (g_dic st)) as [_ Q].
  { eapply (during_dic z I); [|exact D|].
    2: { split; intros k e; rewrite C1; intros; exfalso; match goal with H : znth [] _ = Some _ |- _ => apply znth_Some in H; unfold zlen in H; cbn in H; lia end. }
    intros c d d' IC DA [I1 I2]. split.
    - intros k e E. destruct (names_new _ _ _ DA _ _ E) as [(e0 & E0 & <-)|(N & _)]; [eapply I1; exact E0|eauto].
    - intros k e m x E X. destruct (names_new _ _ _ DA _ _ E) as [(e0 & E0 & F)|(N & N2 & N3)].
      + rewrite <- F. destruct (acros_cases _ _ _ DA) as [Q|[(a0 & _ & Q2 & Q)|(n & a0 & b0 & Q1 & _ & Q2 & Q)]]; rewrite Q in X.
        * eapply I2; [exact E0|exact X].
        * apply znth_snoc in X. destruct X as [X|[_ ->]]; [eapply I2; [exact E0|exact X]|]. destruct Q2 as [Q2|[(t & ->) _]]; [left; exact Q2|right].
          destruct (I1 _ _ E0) as (c0 & J0 & J1). eapply NC; [exact J0|exact IC|exact J1].
        * apply znth_zset in X. destruct X as [[-> ->]|[_ X]]; [|eapply I2; [exact E0|exact X]]. destruct Q2 as [[Q2 _]|(_ & _ & Q2)].
          -- rewrite Q2. eapply I2; [exact E0|exact Q1].
          -- right. assert (Q3 : ~ 1 <= sym_find d (ac_name b0)) by lia. rewrite sym_find_none in Q3. destruct e0 as [nm s0]. eapply Q3. exact E0.
      + rewrite N3 in X. right. apply not_eq_sym. apply N2. apply in_map. eapply znth_In. exact X. }
  destruct (Q _ _ _ _ S A) as [E|E]; [|exact E]. cbn [fst]. rewrite E. intros U.
  destruct (C29_names_are_identifiers z cs st i a da ta (new_writing _ _ _ W0) SY) as (_ & c & r & -> & _). discriminate U.
Qed.

(** ** The hypotheses are met *)

Example C33_case_adding : exists st', exec rle_zlib (gdxAddSetText (s2z "both "" and '")) case_written = Done (ret_i 1 [3], st') /\ elem_text rle_zlib st' 3 (s2z "both "" and """).
Proof. eexists. split; [vm_compute; reflexivity|]. eexists. ans. Qed.
Example C33_case_sharing : forall i, elem_text rle_zlib case_written i (s2z "a text") -> i = 1.
Proof. intros i H. eapply (C33_equal_texts_share _ _ _ i 1 _ case_writing H). eexists. ans. Qed.
Example C33_case_stay : elem_text rle_zlib case_read 2 (s2z "another 'text").
Proof. refine (proj1 (C33_texts_after_reopening _ _ _ _ _ _ _ _ _ _ case_reopened) _). eexists. ans. Qed.
Example C34_case : safe_text (s2z "canning ""plants""").
Proof. eapply (C34_explanatory_texts_are_safe rle_zlib _ _ 1 2 0 _ case_writing); [discriminate|ans]. Qed.
Example C35_case : comments rle_zlib case_read 1 [s2z "first comment"; s2z "second comment"] /\ comments rle_zlib case_read 6 [s2z "a comment"].
Proof.
  assert (N : Forall names_its_symbol case_calls) by (unfold case_calls; repeat (constructor; [cbn; try exact I; lia|]); constructor).
  assert (E1 : added 1 case_calls case_answers = [s2z "first comment"; s2z "second comment"]) by (vm_compute; reflexivity).
  assert (E6 : added 6 case_calls case_answers = [s2z "a comment"]) by (vm_compute; reflexivity).
  split; [rewrite <- E1|rewrite <- E6]; exact (C35_comments_are_found_again _ _ _ _ _ _ _ _ _ case_reopened case_new N).
Qed.
Example C40_case_adding : exists st', exec rle_zlib (gdxAcronymAdd (s2z "tuesday") (s2z "second day") 9) case_written = Done (ret 2, st') /\
  acronym_is rle_zlib st' 2 (s2z "tuesday") (s2z "second day") 9 /\ acronym_is rle_zlib st' 1 (s2z "monday") (s2z "first day") 7.
Proof. eexists. split; [vm_compute; reflexivity|]. split; ans. Qed.
Example C40_case_refused : exists st', exec rle_zlib (gdxAcronymAdd (s2z "MONDAY") [] 8) case_written = Done (ret (-1), st') /\ acronyms rle_zlib st' 1.
Proof. eexists. split; [vm_compute; reflexivity|]. ans. Qed.
Example C40_case_reopening : acronym_is rle_zlib case_read 1 (s2z "monday") (s2z "first day") 7.
Proof. refine (C40_acronyms_after_reopening _ _ _ _ _ _ _ _ _ _ _ _ case_reopened _ _); [discriminate|ans]. Qed.

Example C49_case : forall i a da ta, symbol rle_zlib case_written i a da ta -> upper a <> upper (s2z "monday").
Proof.
  intros i a da ta S. eapply (C49_disjoint_partial _ _ _ i 1 a da ta _ 7 case_new_writing); [|exact S|eexists; ans].
  assert (F : forallb (fun c => match c with gdxAcronymAdd nm _ _ => str_eqb nm (s2z "monday") | _ => true end &&
                              forallb (fun n => negb (str_eqb (upper n) (upper (s2z "monday")))) (names_of c)) case_calls = true) by (vm_compute; reflexivity).
  rewrite forallb_forall in F. intros c nm t k I1 I2 n N E. apply F in I1. apply F in I2. apply Bool.andb_true_iff in I1, I2. destruct I1 as [_ I1], I2 as [I2 _].
  apply str_eqb_spec in I2. subst nm. rewrite forallb_forall in I1. apply I1 in N. rewrite E in N. rewrite (proj2 (str_eqb_spec _ _) eq_refl) in N. discriminate.
Qed.

Print Assumptions C49_disjoint_refuted.
Print Assumptions C49_disjoint_partial.
Print Assumptions C33_adding_a_text.
Print Assumptions C33_texts_stay.
Print Assumptions C33_equal_texts_share.
Print Assumptions C33_texts_after_reopening.
Print Assumptions C34_element_texts_are_safe.
Print Assumptions C34_explanatory_texts_are_safe.
Print Assumptions C34_starting_stores_the_text.
Print Assumptions C34_texts_stay.
Print Assumptions C35_comments_are_kept.
Print Assumptions C35_comments_are_found_again.
Print Assumptions C40_acronyms_are_unique.
Print Assumptions C40_adding_an_acronym.
Print Assumptions C40_acronyms_stay.
Print Assumptions C40_acronyms_after_reopening.
