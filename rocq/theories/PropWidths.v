(** * Properties of calls that go through all records: C38, C46 *)

From Coq Require Import String Permutation Sorted.
From Verif Require Import Base Prim Values FloatAcr Records LinkedData StrHash IntMap Strings AStream BufStream State
  FileImage ApiCore ApiFile ApiWrite ApiRead Api FileFacts BlockFacts StreamFacts OpenFacts DicInv WriteInv WriteSteps Journal WriteCalls WriteTrace
  Footprint SessInv FileFlow Sessions Vocab PropErr Reopen ReadFacts ReadRecs ReadLoops Cases PropNames PropMeta PropTexts PropDomain Segment LabelFacts Buffered Contents
  Domains Wrote PropRead.
Open Scope Z_scope.
Open Scope list_scope.

(** ** The records one after the other *)

Inductive chain (z : zlib) : gst -> list (Z * list Z * list Z) -> Prop :=
| ch_end : forall s s', do_read z s = Done (None, s') -> chain z s []
| ch_next : forall s af v s1 l, do_read z s = Done (Some (af, v), s1) -> chain z s1 l -> chain z s ((af, cur_keys s1, v) :: l).

Lemma raw_chain : forall z l s s2 s3, g_mode s = fr_raw_data -> run z (repeat gdxDataReadRaw (length l)) s = Done (List.map raw_resp l, s2) ->
  exec z gdxDataReadRaw s2 = Done (ret 0, s3) -> chain z s l.
Proof.
  intros z. induction l as [|t l IH]; intros s s2 s3 M R E.
  - cbn in R. injection R as <-. destruct (read_raw_end _ _ _ E M) as (s1 & D). eapply ch_end. exact D.
  - cbn [length repeat List.map] in R. destruct (run_cons _ _ _ _ _ _ R) as (r & s1 & rs & E1 & R1 & ER). injection ER as <- <-.
    destruct (read_raw_step _ _ _ _ E1) as (_ & D & CK). destruct t as [[a k] v]. cbn [fst snd] in *. rewrite <- CK. apply ch_next; [exact D|].
    eapply IH; [|exact R1|exact E]. rewrite (do_read_mode _ _ _ _ D). exact M.
Qed.
Lemma reads_chain : forall z st n l, reads_all z st n l ->
  exists s, prepare_symbol_read z n unmapped fr_raw_data st = Done (zlen l, s) /\ g_mode s = fr_raw_data /\ chain z s l /\ label_texts s = label_texts st.
Proof.
  intros z st n l (s1 & s2 & s3 & E1 & E2 & E3). exists s1. split; [eapply fast_start; eassumption|]. pose proof (raw_mode _ _ _ _ _ _ E1 E2) as M.
  split; [exact M|]. split; [eapply raw_chain; eassumption|].
  eapply (labels_keep z [gdxDataReadRawStart n]); [|repeat constructor]. split; [reflexivity|]. split; [repeat constructor|].
  exists [ret_i 1 [zlen l]]. cbn [run]. rewrite E1. reflexivity.
Qed.

(** The indices before the first changed one are those of the record before. *)
Lemma add_last_prefix : forall l x l', add_last l x = Done l' -> firstn (length l - 1) l' = firstn (length l - 1) l.
Proof.
  induction l as [|a l IH]; intros x l' H; cbn [add_last] in H; [injection H as <-; reflexivity|]. destruct l as [|b l].
  - reflexivity.
  - destruct (add_last (b :: l) x) as [r|] eqn:E; [|discriminate]. injection H as <-. specialize (IH _ _ E).
    cbn [length] in *. replace (S (S (length l)) - 1)%nat with (S (length l)) by lia. replace (S (length l) - 1)%nat with (length l) in IH by lia.
    cbn [firstn]. f_equal. exact IH.
Qed.
Lemma record_prefix : forall bo delta dim dsize mms last l af last' vs r, length mms = dim -> length last = dim ->
  p_record bo delta dim dsize mms last l = Done (Some (af, last', vs), r) -> firstn (Z.to_nat (af - 1)) last' = firstn (Z.to_nat (af - 1)) last.
Proof.
  intros bo delta dim dsize mms last l af last' vs r LM LL H. unfold p_record in H. destruct (read_keys bo delta dim mms last l) as [[?|af' la r']|] eqn:E; try discriminate.
  destruct (prepeat dsize _ r') as [[vs' r2]|]; [|discriminate]. injection H as -> -> _ _. unfold read_keys in E. destruct l as [|b l]; [discriminate|].
  destruct (b >? delta).
  - destruct (b =? 255); [discriminate|]. destruct (add_last last (b - delta)) as [x|] eqn:A; [|discriminate]. injection E as <- -> _.
    replace (Z.to_nat (Z.of_nat dim - 1)) with (length last - 1)%nat by lia. eapply add_last_prefix. exact A.
  - destruct (b <? 1); [discriminate|]. destruct (p_elems bo _ l) as [[ks r3]|] eqn:P; [|discriminate]. injection E as <- <- _.
    destruct (Nat.le_gt_cases (Z.to_nat (b - 1)) dim) as [LE|GT].
    + rewrite firstn_app, firstn_firstn, Nat.min_id, firstn_length, LL, Nat.min_l by exact LE. rewrite Nat.sub_diag. cbn [firstn]. apply app_nil_r.
    + rewrite (skipn_all2 mms) in P by lia. cbn in P. injection P as <- _. rewrite app_nil_r, firstn_firstn, Nat.min_id. reflexivity.
Qed.
Lemma read_prefix : forall z s af v s1 j, do_read z s = Done (Some (af, v), s1) -> (j < Z.to_nat (af - 1))%nat ->
  nth_error (w_last (g_wrk s1)) j = nth_error (w_last (g_wrk s)) j.
Proof.
  intros z s af v s1 j H J. unfold do_read in H. cbv zeta in H. destruct (w_univ (g_wrk s)).
  - destruct (_ <=? _); [|discriminate]. injection H as <- _ _. cbn in J. lia.
  - destruct (cur_sym s) as [[n sy]|]; [|discriminate]. cbn [obind] in H. destruct (sy_scalar sy).
    + destruct (default_record _ _); [|discriminate]. injection H as <- _ _. cbn in J. lia.
    + destruct (Nat.eqb (length (w_last (g_wrk s))) (w_dim (g_wrk s)) && Nat.eqb (length (w_mms (g_wrk s))) (w_dim (g_wrk s))) eqn:LN; cbn [negb] in H; [|discriminate].
      apply Bool.andb_true_iff in LN. destruct LN as [L1 L2]. apply Nat.eqb_eq in L1, L2.
      destruct (s_parse_o z _ s) as [[o s2]|] eqn:P; [|discriminate]. cbn [obind] in H. destruct o as [[[af' la] vs]|]; [|discriminate].
      destruct (read_values vs _) as [[vals s3]|] eqn:RV; [|discriminate]. cbn [obind] in H. destruct (fix_text _ _ _) as [v2|]; [|discriminate].
      cbn [obind] in H. injection H as -> _ <-. apply read_values_but in RV. destruct RV as [(la2 & x & ->) _]. cbn.
      unfold s_parse_o, s_parse in P. destruct (f_strm (g_fil s)) as [str|]; [|discriminate]. cbv zeta in P.
      destruct (as_view z _) as [view|]; [|discriminate]. destruct (p_record _ _ _ _ _ _ view) as [[o rest]|] eqn:PR; [|discriminate]. injection P as -> _.
      apply (record_prefix _ _ _ _ _ _ _ _ _ _ _ L2 L1) in PR.
      transitivity (nth_error (firstn (Z.to_nat (af - 1)) la) j).
      * rewrite nth_error_firstn. destruct (Nat.ltb_spec j (Z.to_nat (af - 1))); [reflexivity|lia].
      * rewrite PR, nth_error_firstn. destruct (Nat.ltb_spec j (Z.to_nat (af - 1))); [reflexivity|lia].
Qed.

(** ** C46: widths *)

Definition width_of (d : dic) (k : Z) : Z := match uel_text d k with Some s => zlen s | None => 0 end.
Lemma width_nonneg : forall d k, 0 <= width_of d k.
Proof. intros d k. unfold width_of. destruct (uel_text d k); [apply zlen_nonneg|lia]. Qed.
Lemma nth_max_lens : forall d ks ls j, nth_error (max_lens d ks ls) j =
  match nth_error ls j with
  | None => None
  | Some x => Some (match nth_error ks j with Some k => Z.max x (width_of d k) | None => x end)
  end.
Proof.
  intros d. induction ks as [|k ks IH]; intros [|l ls] [|j]; cbn [max_lens nth_error]; try reflexivity.
  - destruct (nth_error ls j); reflexivity.
  - apply IH.
Qed.
Lemma nth_error_skipn : forall {A} (l : list A) i j, nth_error (skipn i l) j = nth_error l (i + j).
Proof. intros A. induction l as [|x l IH]; intros [|i] j; cbn [skipn Nat.add nth_error]; try reflexivity; [destruct j; reflexivity|apply IH]. Qed.
Definition widened (d : dic) (i : nat) (keys lens : list Z) : list Z := firstn i lens ++ max_lens d (skipn i keys) (skipn i lens).
Lemma nth_widened : forall d i keys lens j, nth_error (widened d i keys lens) j =
  match nth_error lens j with
  | None => None
  | Some x => Some (if (j <? i)%nat then x else match nth_error keys j with Some k => Z.max x (width_of d k) | None => x end)
  end.
Proof.
  intros d i keys lens j. unfold widened. destruct (Nat.ltb_spec j i) as [LT|GE].
  - destruct (nth_error lens j) as [x|] eqn:E.
    + assert (j < length lens)%nat by (apply nth_error_Some; congruence). rewrite nth_error_app1 by (rewrite firstn_length; lia).
      rewrite nth_error_firstn. destruct (Nat.ltb_spec j i); [exact E|lia].
    + apply nth_error_None in E. apply nth_error_None. rewrite app_length, firstn_length.
      assert (X : forall ks ls, length (max_lens d ks ls) = length ls) by (induction ks as [|k ks IH]; intros [|l ls]; cbn; auto). rewrite X, skipn_length. lia.
  - destruct (nth_error lens j) as [x|] eqn:E.
    + assert (j < length lens)%nat by (apply nth_error_Some; congruence). rewrite nth_error_app2 by (rewrite firstn_length; lia).
      rewrite firstn_length, Nat.min_l by lia. rewrite nth_max_lens, !nth_error_skipn. replace (i + (j - i))%nat with j by lia. rewrite E. reflexivity.
    + apply nth_error_None in E. apply nth_error_None. rewrite app_length, firstn_length.
      assert (X : forall ks ls, length (max_lens d ks ls) = length ls) by (induction ks as [|k ks IH]; intros [|l ls]; cbn; auto). rewrite X, skipn_length. lia.
Qed.

Lemma len_loop_max : forall z l s fuel lens lens' s', chain z s l -> len_loop z fuel lens s = Done (lens', s') ->
  (forall j k x, (j < w_dim (g_wrk s))%nat -> nth_error (w_last (g_wrk s)) j = Some k -> nth_error lens j = Some x -> width_of (g_dic s) k <= x) ->
  length lens' = length lens /\
  forall j x, nth_error lens j = Some x -> exists x', nth_error lens' j = Some x' /\ x <= x' /\
    (forall t k, In t l -> nth_error (snd (fst t)) j = Some k -> width_of (g_dic s) k <= x') /\
    (x' = x \/ exists t k, In t l /\ nth_error (snd (fst t)) j = Some k /\ width_of (g_dic s) k = x').
Proof.
  intros z l s fuel lens lens' s' C. revert fuel lens lens' s'. induction C as [s s1 E|s af v s1 l E C IH]; intros [|fuel] lens lens' s' H INV; cbn [len_loop] in H; try discriminate;
    rewrite E in H; cbn [obind] in H.
  - injection H as <- _. split; [reflexivity|]. intros j x X. exists x. split; [exact X|]. split; [lia|]. split; [intros t k []|left; reflexivity].
  - cbv zeta in H. fold (widened (g_dic s1) (Z.to_nat (af - 1)) (cur_keys s1) lens) in H.
    pose proof (do_read_same _ _ _ _ E) as (_ & WD & UE).
    assert (WE : forall k, width_of (g_dic s1) k = width_of (g_dic s) k) by (intros k; unfold width_of, uel_text; rewrite UE; reflexivity).
    assert (STEP : forall j k x, (j < w_dim (g_wrk s1))%nat -> nth_error (w_last (g_wrk s1)) j = Some k -> nth_error lens j = Some x ->
       exists y, nth_error (widened (g_dic s1) (Z.to_nat (af - 1)) (cur_keys s1) lens) j = Some y /\ x <= y /\ width_of (g_dic s) k <= y /\ (y = x \/ y = width_of (g_dic s) k)).
    { intros j k x J1 J2 J3. rewrite nth_widened, J3. destruct (Nat.ltb_spec j (Z.to_nat (af - 1))) as [LT|GE].
      - exists x. split; [reflexivity|]. split; [lia|]. split; [|left; reflexivity]. apply (INV j); [rewrite <- WD; exact J1| |exact J3]. rewrite <- (read_prefix _ _ _ _ _ _ E LT). exact J2.
      - assert (CK : nth_error (cur_keys s1) j = Some k).
        { unfold cur_keys. rewrite nth_error_firstn. destruct (Nat.ltb_spec j (w_dim (g_wrk s1))); [exact J2|lia]. }
        rewrite CK, WE. eexists. split; [reflexivity|]. split; [lia|]. split; lia. }
    destruct (IH fuel _ lens' s' H) as [LN REST].
    { intros j k y J1 J2 J3. pose proof J3 as J3'. rewrite nth_widened in J3'. destruct (nth_error lens j) as [x|] eqn:X; [|discriminate].
      destruct (STEP j k x J1 J2 X) as (y' & Y1 & _ & Y2 & _). rewrite WE. congruence. }
    assert (LW : length (widened (g_dic s1) (Z.to_nat (af - 1)) (cur_keys s1) lens) = length lens).
    { unfold widened. rewrite app_length, firstn_length.
      assert (X : forall ks ls, length (max_lens (g_dic s1) ks ls) = length ls) by (induction ks as [|k ks IHk]; intros [|x ls]; cbn; auto). rewrite X, skipn_length. lia. }
    split; [lia|]. intros j x X.
    destruct (nth_error (cur_keys s1) j) as [k|] eqn:CK.
    + assert (J1 : (j < w_dim (g_wrk s1))%nat /\ nth_error (w_last (g_wrk s1)) j = Some k).
      { unfold cur_keys in CK. rewrite nth_error_firstn in CK. destruct (Nat.ltb_spec j (w_dim (g_wrk s1))); [auto|discriminate]. }
      destruct (STEP j k x (proj1 J1) (proj2 J1) X) as (y & Y1 & Y2 & Y3 & Y4). destruct (REST j y Y1) as (x' & P1 & P2 & P3 & P4).
      exists x'. split; [exact P1|]. split; [lia|]. split.
      * intros t k' [<- |I] K; [cbn [fst snd] in K; rewrite CK in K; injection K as <-; lia|]. rewrite <- WE. eapply P3; eassumption.
      * destruct P4 as [->|(t & k' & I & K & WK)].
        -- destruct Y4 as [-> | ->]; [left; reflexivity|right]. exists (af, cur_keys s1, v), k. split; [left; reflexivity|]. auto.
        -- right. exists t, k'. split; [right; exact I|]. split; [exact K|]. rewrite <- WE. exact WK.
    + assert (Y1 : nth_error (widened (g_dic s1) (Z.to_nat (af - 1)) (cur_keys s1) lens) j = Some x).
      { rewrite nth_widened, X, CK. destruct (_ <? _)%nat; reflexivity. }
      destruct (REST j x Y1) as (x' & P1 & P2 & P3 & P4). exists x'. split; [exact P1|]. split; [lia|]. split.
      * intros t k' [<- |I] K; [cbn [fst snd] in K; congruence|]. rewrite <- WE. eapply P3; eassumption.
      * destruct P4 as [->|(t & k' & I & K & WK)]; [left; reflexivity|]. right. exists t, k'. split; [right; exact I|]. split; [exact K|]. rewrite <- WE. exact WK.
Qed.

Lemma prepare_last : forall z n doms m st c s, prepare_symbol_read z n doms m st = Done (c, s) -> 0 <= c -> mode_in m [fr_map_data] = false ->
  Forall (eq (-1)) (w_last (g_wrk s)).
Proof.
  intros z n doms m st c s H C M. unfold prepare_symbol_read in H. rewrite M in H.
  match type of H with obind ?x _ = _ => destruct x as [st1|]; [|discriminate] end. cbn [obind] in H. cbv zeta in H.
  repeat match type of H with
  | Done (-1, _) = _ => injection H as <- _; lia
  | Done (_, set_g_mode m _) = _ => injection H as _ <-; cbn [g_wrk set_g_mode upd_wrk upd set_g_wrk w_last set_w_last set_w_mms upd_dic set_g_dic];
      first [apply Forall_forall; intros x X; apply repeat_spec in X; symmetry; exact X | constructor; [reflexivity|constructor] | constructor]
  | UB = _ => discriminate H
  | obind ?x _ = _ => destruct x as [?|]; [|discriminate H]; cbn [obind] in H
  | (if ?b then _ else _) = _ => destruct b
  | (let '(_, _) := ?p in _) = _ => destruct p
  | match ?x with Some _ => _ | None => _ end = _ => destruct x
  end.
Qed.

(** [w] is the largest of the lengths of [P], zero if there are none. *)
Definition largest (P : Z -> Prop) (w : Z) : Prop := (forall x, P x -> x <= w) /\ (w = 0 \/ P w).

(** The lengths of the labels that occur at position [j] of the records. *)
Definition label_length (z : zlib) (st : gst) (l : list (Z * list Z * list Z)) (j : nat) (w : Z) : Prop :=
  exists t k s, In t l /\ nth_error (snd (fst t)) j = Some k /\ label z st k s /\ w = zlen s.

Lemma prepare_range : forall z n doms m st c s, prepare_symbol_read z n doms m st = Done (c, s) -> 0 <= c -> g_mode st = fr_init -> 0 <= n <= sym_count (g_dic st).
Proof.
  intros z n doms m st c s H C M. unfold prepare_symbol_read in H. rewrite M in H. change (mode_in fr_init [fr_str_data; fr_map_data; fr_mapr_data; fr_raw_data]) with false in H; cbn [obind] in H. cbv zeta in H.
  pose proof (zlen_nonneg (d_names (g_dic st))). unfold sym_count in *.
  destruct (Z.eqb_spec n 0) as [->|NE]; [lia|]. cbn [negb andb g_mode upd_wrk upd upd_err set_g_wrk set_g_err g_dic] in H. rewrite M in H. change (mode_in fr_init [fr_init]) with true in H; cbn [negb] in H.
  destruct (d_nn (g_dic st)); [|discriminate]. cbn [negb] in H.
  destruct (Z.leb_spec 1 n); destruct (Z.leb_spec n (zlen (d_names (g_dic st)))); cbn [andb negb] in H; try (injection H as <- _; lia). lia.
Qed.
Lemma In_znth : forall {A} (l : list A) a, In a l -> exists i, znth l i = Some a.
Proof.
  intros A l a I. apply In_nth_error in I. destruct I as (n & E). exists (Z.of_nat n). unfold znth. destruct (Z.ltb_spec (Z.of_nat n) 0); [lia|]. rewrite Nat2Z.id. exact E.
Qed.
Lemma fold_max : forall l m, let x := fold_left Z.max l m in m <= x /\ (forall w, In w l -> w <= x) /\ (x = m \/ In x l).
Proof.
  induction l as [|a l IH]; intros m; cbn [fold_left]; [split; [lia|split; [intros w []|left; reflexivity]]|].
  destruct (IH (Z.max m a)) as (A & B & C). split; [lia|]. split.
  - intros w [<- |I]; [lia|apply B, I].
  - destruct C as [C|C]; [|right; right; exact C]. rewrite C. destruct (Z.max_spec m a) as [(_ & ->)|(_ & ->)]; [right; left; reflexivity|left; reflexivity].
Qed.
Lemma width_label : forall z st st' k, label_texts st' = label_texts st -> forall w, width_of (g_dic st') k = w ->
  (exists s, label z st k s /\ w = zlen s) \/ (w = 0 /\ forall s, ~ label z st k s).
Proof.
  intros z st st' k L w <-. unfold width_of. rewrite (text_texts st' st k L). destruct (uel_text (g_dic st) k) as [s|] eqn:E.
  - left. exists s. split; [apply label_iff; exact E|reflexivity].
  - right. split; [reflexivity|]. intros s X. apply label_iff in X. congruence.
Qed.

(** gdxSymbIndxMaxLength: for each of the twenty positions the length of the longest label
    that occurs there in the records (zero if there is none), and the largest of these. *)
Theorem C46_index_widths : forall z st n l r st', reads_all z st n l -> g_mode st = fr_init -> exec z (gdxSymbIndxMaxLength n) st = Done (r, st') ->
  exists m ws, r = ret_i m ws /\ length ws = 20%nat /\ (forall j w, nth_error ws j = Some w -> largest (label_length z st l j) w) /\ largest (fun w => In w ws) m.
Proof.
  intros z st n l r st' RA M H. destruct (reads_chain _ _ _ _ RA) as (s & P & MS & C & LT).
  pose proof (prepare_range _ _ _ _ _ _ _ P (zlen_nonneg l) M) as RG. cbn [exec] in H. unfold symb_indx_max_length in H. cbv zeta in H.
  rewrite M in H. change (mode_in fr_init [fr_init]) with true in H; cbn [negb] in H. destruct (d_nn (g_dic st)); [|discriminate]. cbn [negb] in H.
  destruct (Z.ltb_spec n 0); [lia|]. destruct (Z.gtb_spec n (sym_count (g_dic st))); [lia|]. cbn [orb] in H. rewrite P in H. cbn [obind] in H.
  pose proof (zlen_nonneg l). destruct (Z.ltb_spec (zlen l) 0); [lia|].
  match type of H with obind ?x _ = _ => destruct x as [[ws s4]|] eqn:L; [|discriminate] end. cbn [obind] in H.
  destruct (data_read_done s4) as [[b s5]|]; [|discriminate]. cbn [obind] in H. injection H as <- _. exists (fold_left Z.max ws 0), ws. split; [reflexivity|].
  assert (W : length ws = 20%nat /\ forall j x, nth_error (repeat 0 20) j = Some x -> exists x', nth_error ws j = Some x' /\ x <= x' /\
    (forall t k, In t l -> nth_error (snd (fst t)) j = Some k -> width_of (g_dic s) k <= x') /\
    (x' = x \/ exists t k, In t l /\ nth_error (snd (fst t)) j = Some k /\ width_of (g_dic s) k = x')).
  { destruct (w_dim (g_wrk s)) as [|d0] eqn:WD.
    - injection L as <- _. split; [reflexivity|]. intros j x X. exists x. split; [exact X|]. split; [lia|]. split; [|left; reflexivity].
      intros t k I K. exfalso. clear - C WD I K. induction C as [s s1 E|s af v s1 l E C IH]; [destruct I|]. pose proof (do_read_same _ _ _ _ E) as (_ & W & _). destruct I as [<- |I].
      + cbn [fst snd] in K. unfold cur_keys in K. rewrite W, WD in K. destruct j; discriminate.
      + apply IH; [congruence|exact I].
    - destruct (len_loop_max _ _ _ _ _ _ _ C L) as [LN X].
      + intros j k x _ J1 J2. pose proof (prepare_last _ _ _ _ _ _ _ P (zlen_nonneg l) eq_refl) as F. rewrite Forall_forall in F.
        apply nth_error_In in J1. rewrite <- (F _ J1). apply nth_error_In in J2. apply (repeat_spec MAX_DIM) in J2. subst x. cbn. unfold width_of, uel_text, znth. cbn. lia.
      + split; [exact LN|exact X]. }
  destruct W as [LN W]. split; [exact LN|]. split.
  - intros j w N. assert (J : (j < 20)%nat) by (rewrite <- LN; apply nth_error_Some; congruence).
    destruct (W j 0) as (x' & X & LE & U & A). { rewrite nth_error_repeat; [reflexivity|exact J]. }
    rewrite N in X. injection X as <-. split.
    + intros x (t & k & lb & I & K & LB & ->). specialize (U t k I K). unfold width_of in U. apply label_iff in LB. rewrite (text_texts s st _ LT), LB in U. exact U.
    + destruct A as [->|(t & k & I & K & E)]; [left; reflexivity|]. destruct (width_label z st s k LT w E) as [(lb & LB & EQ)|(Z0 & _)]; [|left; exact Z0].
      right. exists t, k, lb. auto.
  - destruct (fold_max ws 0) as (A & B & D). split; [exact B|]. destruct D as [D|D]; [left; exact D|right; exact D].
Qed.

Lemma max_len_spec : forall l m, let x := fold_left (fun m (s : str) => Z.max m (zlen s)) l m in m <= x /\ (forall s, In s l -> zlen s <= x) /\ (x = m \/ exists s, In s l /\ x = zlen s).
Proof.
  induction l as [|a l IH]; intros m; cbn [fold_left]; [split; [lia|split; [intros w []|left; reflexivity]]|].
  destruct (IH (Z.max m (zlen a))) as (A & B & C). split; [lia|]. split.
  - intros w [<- |I]; [lia|apply B, I].
  - destruct C as [C|(s & I & C)]; [|right; exists s; split; [right; exact I|exact C]]. rewrite C.
    destruct (Z.max_spec m (zlen a)) as [(_ & ->)|(_ & ->)]; [right; exists a; split; [left; reflexivity|reflexivity]|left; reflexivity].
Qed.
(** gdxUELMaxLength and gdxSymbMaxLength: the longest of the labels, the longest of the symbol names. *)
Theorem C46_label_width : forall z st r st', exec z gdxUELMaxLength st = Done (r, st') ->
  exists w, r = ret w /\ largest (fun x => exists k s, label z st k s /\ x = zlen s) w.
Proof.
  intros z st r st' H. cbn [exec] in H. unfold uel_max_length in H. destruct (d_un (g_dic st)); [|discriminate]. injection H as <- _. eexists. split; [reflexivity|].
  unfold max_len. destruct (max_len_spec (List.map fst (d_uels (g_dic st))) 0) as (_ & B & C). split.
  - intros x (k & s & L & ->). apply B. apply label_iff in L. unfold uel_text in L. destruct (znth (d_uels (g_dic st)) (k - 1)) as [[t u]|] eqn:E; [|discriminate]. injection L as <-.
    apply in_map_iff. exists (t, u). split; [reflexivity|]. eapply znth_In; exact E.
  - destruct C as [C|(s & I & C)]; [left; exact C|right]. apply in_map_iff in I. destruct I as ([t u] & <- & I). apply In_znth in I. destruct I as (i & E).
    exists (i + 1), t. split; [|exact C]. apply label_iff. unfold uel_text. replace (i + 1 - 1) with i by lia. rewrite E. reflexivity.
Qed.
Theorem C46_name_width : forall z st r st', exec z gdxSymbMaxLength st = Done (r, st') ->
  exists w, r = ret w /\ largest (fun x => exists k name dim typ, symbol z st k name dim typ /\ x = zlen name) w.
Proof.
  intros z st r st' H. cbn [exec] in H. unfold symb_max_length in H. destruct (d_nn (g_dic st)); [|discriminate]. injection H as <- _. eexists. split; [reflexivity|].
  unfold max_len. destruct (max_len_spec (List.map fst (d_names (g_dic st))) 0) as (_ & B & C). split.
  - intros x (k & s & dim & typ & L & ->). apply B. apply symbol_iff in L. destruct L as (sm & E & _). apply in_map_iff. exists (s, sm). split; [reflexivity|]. eapply znth_In; exact E.
  - destruct C as [C|(s & I & C)]; [left; exact C|right]. apply in_map_iff in I. destruct I as ([t u] & <- & I). apply In_znth in I. destruct I as (i & E).
    exists (i + 1), t. do 2 eexists. split; [|exact C]. apply symbol_iff. exists u. replace (i + 1 - 1) with i by lia. split; [exact E|]. split; reflexivity.
Qed.

(** ** C38: the elements of a domain *)

Lemma prepare_dic : forall z n doms m st c s, prepare_symbol_read z n doms m st = Done (c, s) -> 0 <= c -> m <> fr_map_data -> g_mode st = fr_init ->
  same_dic (g_dic st) (g_dic s) /\ w_added (g_wrk s) = 0.
Proof.
  intros z n doms m st c s H C MM M. assert (NM : mode_in m [fr_map_data] = false) by (destruct m; try reflexivity; contradiction MM; reflexivity).
  unfold prepare_symbol_read in H. rewrite M in H. change (mode_in fr_init [fr_str_data; fr_map_data; fr_mapr_data; fr_raw_data]) with false in H. cbn [obind] in H.
  change (g_mode (upd_wrk (fun w => set_w_sort None (set_w_cur CNull (set_w_added 0 w))) (upd_err (set_r_list None) st))) with (g_mode st) in H. rewrite M in H.
  change (mode_in fr_init [fr_init]) with true in H. cbn [negb] in H. rewrite NM in H. cbv zeta in H.
  destruct (_ && _); [discriminate|]. destruct (_ && _); [injection H as <- _; lia|].
  match type of H with obind ?x _ = _ => destruct x as [tg|]; [|discriminate] end. cbn [obind] in H. destruct tg as [nr|].
  - destruct (get_sym _ nr) as [sy|]; [|discriminate]. destruct (data_size (sy_type sy)) as [ds|]; [|discriminate]. cbn [obind] in H.
    match type of H with obind ?x _ = _ => destruct x as [s1|] eqn:E1; [|discriminate] end. cbn [obind] in H. apply s_setcomp_sbf in E1. destruct E1 as [f1 ->].
    match type of H with obind ?x _ = _ => destruct x as [s2|] eqn:E2; [|discriminate] end. cbn [obind] in H. apply s_setpos_sbf in E2. destruct E2 as [f2 ->].
    destruct (_ <? _)%nat; [discriminate|]. destruct (domain_actions _ _) as [acts|]; [|injection H as <- _; lia].
    match type of H with obind ?x _ = _ => destruct x as [[mark s3]|] eqn:E3; [|discriminate] end. cbn [obind] in H. apply s_parse_sbf in E3. destruct E3 as [f3 ->].
    destruct (negb _); [injection H as <- _; lia|].
    match type of H with obind ?x _ = _ => destruct x as [[b s4]|] eqn:E4; [|discriminate] end. cbn [obind] in H. apply s_parse_sbf in E4. destruct E4 as [f4 ->].
    destruct (negb _); [injection H as <- _; lia|].
    match type of H with obind ?x _ = _ => destruct x as [[b' s5]|] eqn:E5; [|discriminate] end. cbn [obind] in H. apply s_parse_sbf in E5. destruct E5 as [f5 ->].
    destruct (_ && _).
    + injection H as _ <-. split; [cbn; apply same_dic_upd|reflexivity].
    + match type of H with obind ?x _ = _ => destruct x as [[b'' s6]|] eqn:E6; [|discriminate] end. cbn [obind] in H. apply s_parse_sbf in E6. destruct E6 as [f6 ->].
      injection H as _ <-. split; [cbn; apply same_dic_upd|reflexivity].
  - destruct (_ <? _)%nat; [discriminate|]. destruct (domain_actions _ _) as [acts|]; [|injection H as <- _; lia].
    injection H as _ <-. split; [apply same_dic_refl|reflexivity].
Qed.

(** Number [k] of a label occurs at position [j], from zero, in the records [l]. *)
Definition used_at (l : list (Z * list Z * list Z)) (j : nat) (k : Z) : Prop := exists t, In t l /\ nth_error (snd (fst t)) j = Some k.
(** The user number of a label, as gdxUMUelGet reports it. *)
Definition user_number (z : zlib) (st : gst) (k u : Z) : Prop := exists s, answers z st (gdxUMUelGet k) (ret_is 1 [u] [s]).
(** Filter number [f] lets the user number [v] pass. *)
Definition admits (st : gst) (f v : Z) : Prop := exists g, find_filter (d_filts (g_dic st)) f = Some g /\ in_filter g v = true.

Lemma user_number_iff : forall z st k u, user_number z st k u <-> exists s, znth (d_uels (g_dic st)) (k - 1) = Some (s, u).
Proof.
  intros z st k u. unfold user_number, answers. cbn [exec]. unfold um_uel_get. split.
  - intros (s & st' & H). destruct (znth _ _) as [[t v]|]; [|discriminate]. injection H as <- <- _. eauto.
  - intros (s & ->). eauto.
Qed.


(** Reading records does not look at the errors. *)
Lemma read_value_err : forall f v st, read_value v (upd_err f st) = (do (x, s) <- read_value v st ;; Done (x, upd_err f s)).
Proof.
  intros f [m|d] st; cbn [read_value]; [reflexivity|]. destruct (fleb SV_ACR d); [|reflexivity]. unfold acro_remap. cbv zeta.
  change (g_env (upd_err f st)) with (g_env st). change (g_dic (upd_err f st)) with (g_dic st).
  destruct (dblInfo d); try reflexivity. destruct (e_acrnan (g_env st)); [reflexivity|]. destruct (d_round _); [|reflexivity]. destruct (_ <? 0).
  - destruct (_ <=? 0); reflexivity.
  - destruct (znth _ _); [|reflexivity]. destruct (ac_rmap _ <=? 0); [destruct (_ <=? 0)|]; reflexivity.
Qed.
Lemma read_values_err : forall f vs st, read_values vs (upd_err f st) = (do (x, s) <- read_values vs st ;; Done (x, upd_err f s)).
Proof.
  intros f. induction vs as [|v vs IH]; intros st; cbn [read_values]; [reflexivity|]. rewrite read_value_err.
  destruct (read_value v st) as [[x s]|]; [|reflexivity]. cbn [obind]. rewrite IH. destruct (read_values vs s) as [[y s']|]; reflexivity.
Qed.
Lemma do_read_err : forall z f s, do_read z (upd_err f s) = (do (x, s1) <- do_read z s ;; Done (x, upd_err f s1)).
Proof.
  intros z f s. unfold do_read. cbv zeta. change (g_wrk (upd_err f s)) with (g_wrk s).
  change (g_dic (upd_wrk (set_w_unr (w_unr (g_wrk s) + 1)) (upd_err f s))) with (g_dic s). change (g_dic (upd_wrk (set_w_unr (w_unr (g_wrk s) + 1)) s)) with (g_dic s).
  destruct (w_univ (g_wrk s)); [destruct (_ <=? _); reflexivity|]. change (cur_sym (upd_err f s)) with (cur_sym s).
  destruct (cur_sym s) as [[n sy]|]; [|reflexivity]. cbn [obind]. destruct (sy_scalar sy).
  - change (g_env (upd_err f s)) with (g_env s). destruct (default_record _ _); reflexivity.
  - change (delta_for_read (upd_err f s)) with (delta_for_read s). change (g_fil (upd_err f s)) with (g_fil s). destruct (negb _); [reflexivity|].
    unfold s_parse_o, s_parse. change (g_fil (upd_err f s)) with (g_fil s). destruct (f_strm (g_fil s)) as [h|]; [|reflexivity].
    cbv zeta. destruct (as_view z (as_flush z h)) as [v|]; [|reflexivity]. destruct (p_record _ _ _ _ _ _ v) as [[[[[af la] vs]|] v']|]; try reflexivity.
    cbn [obind].
    match goal with |- context [read_values vs (upd_wrk ?g (s_log ?a ?b (upd_err f s)))] => change (upd_wrk g (s_log a b (upd_err f s))) with (upd_err f (upd_wrk g (s_log a b s))) end.
    rewrite read_values_err. destruct (read_values vs _) as [[vals s3]|]; [|reflexivity]. cbn [obind].
    assert (FT : fix_text sy vals (upd_err f s3) = fix_text sy vals s3) by reflexivity. rewrite FT. destruct (fix_text sy vals s3); reflexivity.
Qed.
Lemma chain_err : forall z f l s, chain z s l -> chain z (upd_err f s) l.
Proof.
  intros z f l s C. induction C as [s s1 E|s af v s1 l E C IH].
  - eapply ch_end. rewrite do_read_err, E. reflexivity.
  - change (cur_keys s1) with (cur_keys (upd_err f s1)). eapply ch_next; [rewrite do_read_err, E; reflexivity|exact IH].
Qed.
Lemma do_read_filts : forall z s r s1, do_read z s = Done (r, s1) -> w_added (g_wrk s1) = w_added (g_wrk s).
Proof.
  intros z s r s1 H. unfold do_read in H. cbv zeta in H. destruct (w_univ (g_wrk s)).
  - destruct (_ <=? _); injection H as _ <-; reflexivity.
  - destruct (cur_sym s) as [[n sy]|]; [|discriminate]. cbn [obind] in H. destruct (sy_scalar sy).
    + destruct (default_record _ _); [|discriminate]. injection H as _ <-. reflexivity.
    + destruct (negb _); [discriminate|]. unfold s_parse_o, s_parse in H. destruct (f_strm (g_fil s)) as [h|]; [|discriminate]. cbv zeta in H.
      destruct (as_view z (as_flush z h)) as [v|]; [|discriminate]. destruct (p_record _ _ _ _ _ _ v) as [[[[[af la] vs]|] v']|]; try discriminate.
      * cbn [obind] in H. destruct (read_values vs _) as [[vals s3]|] eqn:RV; [|discriminate]. cbn [obind] in H. destruct (fix_text _ _ _) as [v2|]; [|discriminate].
        cbn [obind] in H. injection H as _ <-.
        assert (X : forall vs st x s1, read_values vs st = Done (x, s1) -> w_added (g_wrk s1) = w_added (g_wrk st)).
        { clear. induction vs as [|v vs IH]; intros st x s1 H; cbn [read_values] in H; [injection H as _ <-; reflexivity|].
          destruct (read_value v st) as [[y s]|] eqn:E; [|discriminate]. cbn [obind] in H. destruct (read_values vs s) as [[ys s2]|] eqn:E2; [|discriminate].
          cbn [obind] in H. injection H as _ <-. rewrite (IH _ _ _ E2). clear - E. destruct v as [m|d]; cbn [read_value] in E; [injection E as _ <-; reflexivity|].
          destruct (fleb SV_ACR d); [|injection E as _ <-; reflexivity]. unfold acro_remap in E. cbv zeta in E.
          destruct (dblInfo d); try (injection E as _ <-; reflexivity). destruct (e_acrnan (g_env st)); [injection E as _ <-; reflexivity|].
          destruct (d_round _); [|discriminate]. destruct (_ <? 0).
          - destruct (_ <=? 0); injection E as _ <-; reflexivity.
          - destruct (znth _ _); [|discriminate]. destruct (ac_rmap _ <=? 0); [destruct (_ <=? 0)|]; injection E as _ <-; reflexivity. }
        rewrite (X _ _ _ _ RV). reflexivity.
      * injection H as _ <-. reflexivity.
Qed.

Lemma dom_loop_spec : forall z pos f l s fuel m m' s', chain z s l -> Forall (fun t => Forall int_ok (snd (fst t))) l -> im_inv m ->
  (forall k, im_get m k = 1 -> k <= im_high m) -> dom_loop z fuel pos f m s = Done (m', s') ->
  (forall k, im_get m' k = 1 <-> im_get m k = 1 \/ (used_at l pos k /\ (forall g, f = Some g -> exists v, user_map (g_dic s) k = Done v /\ in_filter g v = true))) /\
  (forall k, im_get m' k = 1 -> k <= im_high m') /\ g_mode s' = g_mode s /\ d_uels (g_dic s') = d_uels (g_dic s) /\ w_added (g_wrk s') = w_added (g_wrk s).
Proof.
  intros z pos f l. induction l as [|t l IH]; intros s fuel m m' s' C F IM HI H; destruct fuel as [|fuel]; cbn [dom_loop] in H; try discriminate; inversion C as [? s1 E|? af vals s1 ? E C']; subst.
  - rewrite E in H. cbn [obind] in H. injection H as <- <-. split; [|split; [exact HI|]].
    + intros k. split; [auto|]. intros [?|[(t & [] & _) _]]. assumption.
    + pose proof (do_read_same _ _ _ _ E) as (A & _ & B). pose proof (do_read_filts _ _ _ _ E). auto.
  - rewrite E in H. cbn [obind] in H. cbv zeta in H. pose proof (do_read_same _ _ _ _ E) as (A & _ & B). pose proof (do_read_filts _ _ _ _ E) as AD.
    inversion F as [|? ? F1 F2]; subst. cbn [fst snd] in F1.
    assert (UM : forall k, user_map (g_dic s1) k = user_map (g_dic s) k) by (intros k; unfold user_map; rewrite B; reflexivity).
    destruct (nth_error (cur_keys s1) pos) as [n|] eqn:NK; [|discriminate].
    assert (NI : int_ok n) by (rewrite Forall_forall in F1; apply F1; eapply nth_error_In; exact NK).
    match type of H with obind ?x _ = _ => destruct x as [inside|] eqn:EI; [|discriminate] end. cbn [obind] in H.
    assert (IN : inside = true <-> forall g, f = Some g -> exists v, user_map (g_dic s) n = Done v /\ in_filter g v = true).
    { destruct f as [g|].
      - rewrite UM in EI. destruct (user_map (g_dic s) n) as [v|]; [|discriminate]. cbn [obind] in EI. injection EI as <-. split.
        + intros X g' E'. injection E' as <-. eauto.
        + intros X. destruct (X g eq_refl) as (v' & E' & ?). injection E' as <-. assumption.
      - injection EI as <-. split; [discriminate|reflexivity]. }
    destruct inside.
    + destruct (im_set m n 1) as [m1|] eqn:IS; [|discriminate]. cbn [obind] in H.
      assert (N0 : 0 <= n) by (unfold im_set in IS; destruct (Z.ltb_spec n 0); [discriminate|assumption]).
      destruct (im_set_spec m n 1 IM) as (m1' & E1 & I1 & G1 & H1); [unfold int_ok in NI; lia|]. rewrite IS in E1. injection E1 as <-.
      destruct (IH s1 fuel m1 m' s'  C' F2 I1) as (P1 & P2 & P3 & P4 & P5); [|exact H|].
      { intros k K. rewrite G1 in K. rewrite H1. destruct (Z.eqb_spec k n); [lia|]. specialize (HI k K). lia. }
      split; [|split; [exact P2|split; [congruence|split; congruence]]]. intros k. rewrite P1, G1. split.
      * intros [X|[U X]].
        -- destruct (Z.eqb_spec k n) as [EK|]; [right; rewrite EK|left; exact X]. split; [|apply IN; reflexivity]. eexists. split; [left; reflexivity|exact NK].
        -- right. split; [destruct U as (t & T1 & T2); exists t; split; [right; exact T1|exact T2]|]. intros g G. rewrite <- UM. apply X, G.
      * intros [X|[(t & [<- |T1] & T2) X]].
        -- left. destruct (k =? n); [reflexivity|exact X].
        -- cbn [fst snd] in T2. rewrite NK in T2. injection T2 as <-. left. rewrite Z.eqb_refl. reflexivity.
        -- right. split; [exists t; auto|]. intros g G. rewrite UM. apply X, G.
    + destruct (IH _ fuel m m' s' (chain_err _ _ _ _  C') F2 IM HI H) as (P1 & P2 & P3 & P4 & P5). cbn in P3, P4, P5.
      split; [|split; [exact P2|split; [congruence|split; congruence]]]. intros k. rewrite P1. split.
      * intros [X|[U X]]; [left; exact X|right]. split; [destruct U as (t & T1 & T2); exists t; split; [right; exact T1|exact T2]|]. intros g G. rewrite <- UM. apply X, G.
      * intros [X|[(t & [<- |T1] & T2) X]]; [left; exact X| |].
        -- exfalso. cbn [fst snd] in T2. rewrite NK in T2. injection T2 as T2. subst k. apply IN in X. discriminate.
        -- right. split; [exists t; auto|]. intros g G. cbn. rewrite UM. apply X, G.
Qed.

Lemma marked_spec : forall m k, (forall k, im_get m k = 1 -> k <= im_high m) -> In k (marked m) <-> 1 <= k /\ im_get m k = 1.
Proof.
  intros m k HI. unfold marked. rewrite filter_In, in_map_iff, Z.eqb_eq. split.
  - intros ((j & <- & J) & G). apply in_seq in J. split; [lia|exact G].
  - intros (K & G). split; [|exact G]. exists (Z.to_nat k). split; [lia|]. apply in_seq. specialize (HI k G). lia.
Qed.
Lemma marked_sorted : forall m, StronglySorted Z.lt (marked m).
Proof.
  intros m. unfold marked. assert (X : forall n a, StronglySorted Z.lt (List.map Z.of_nat (seq a n))).
  { induction n as [|n IH]; intros a; cbn [seq List.map]; constructor; [apply IH|]. apply Forall_forall. intros x I. apply in_map_iff in I. destruct I as (j & <- & J). apply in_seq in J. lia. }
  specialize (X (Z.to_nat (im_high m)) 1%nat). induction X as [|a l S IH F]; cbn [filter]; [constructor|]. destruct (_ =? _); [|exact IH]. constructor; [exact IH|].
  rewrite Forall_forall in *. intros x I. apply filter_In in I. apply F, I.
Qed.
Lemma insert_by_perm : forall e l, Permutation (insert_by e l) (e :: l).
Proof. intros e l. induction l as [|x l IH]; cbn [insert_by]; [reflexivity|]. destruct (_ <? _); [reflexivity|]. rewrite IH. apply perm_swap. Qed.
Lemma insert_by_sorted : forall e l, StronglySorted (fun a b : Z * Z => fst a <= fst b) l -> StronglySorted (fun a b : Z * Z => fst a <= fst b) (insert_by e l).
Proof.
  intros e l S. induction S as [|x l S IH F]; cbn [insert_by]; [repeat constructor|]. destruct (Z.ltb_spec (fst e) (fst x)).
  - constructor; [constructor; assumption|]. constructor; [lia|]. eapply Forall_impl; [|exact F]. intros a A. cbn in A. lia.
  - constructor; [exact IH|]. apply (Permutation_Forall (Permutation_sym (insert_by_perm e l))). constructor; [lia|exact F].
Qed.
Lemma sort_by_spec : forall l, Permutation (sort_by l) l /\ StronglySorted (fun a b : Z * Z => fst a <= fst b) (sort_by l).
Proof.
  intros l. unfold sort_by. assert (X : forall l acc, StronglySorted (fun a b : Z * Z => fst a <= fst b) acc ->
    Permutation (fold_left (fun a e => insert_by e a) l acc) (l ++ acc) /\ StronglySorted (fun a b : Z * Z => fst a <= fst b) (fold_left (fun a e => insert_by e a) l acc)).
  { clear. induction l as [|e l IH]; intros acc S; cbn [fold_left app]; [auto|]. destruct (IH _ (insert_by_sorted e acc S)) as [P Q]. split; [|exact Q].
    rewrite P, insert_by_perm. symmetry. apply Permutation_middle. }
  destruct (X l [] (SSorted_nil _)) as [P Q]. rewrite app_nil_r in P. auto.
Qed.
Lemma number_all_spec : forall l d vs d', number_all l d = Done (vs, d') -> NoDup l ->
  List.map snd vs = l /\ (forall v n, In (v, n) vs -> exists s, znth (d_uels d') (n - 1) = Some (s, v)) /\
  (forall k s u, znth (d_uels d) (k - 1) = Some (s, u) -> ~ In k l \/ 0 <= u -> znth (d_uels d') (k - 1) = Some (s, u)).
Proof.
  induction l as [|n l IH]; intros d vs d' H ND; cbn [number_all] in H.
  - injection H as <- <-. split; [reflexivity|]. split; [intros v n []|]. auto.
  - destruct (new_usr_uel n d) as [[v d1]|] eqn:E; [|discriminate]. cbn [obind] in H. destruct (number_all l d1) as [[vs1 d2]|] eqn:E2; [|discriminate].
    cbn [obind] in H. injection H as <- <-. inversion ND as [|? ? NI ND']; subst. destruct (IH _ _ _ E2 ND') as (A & B & C).
    assert (N1 : exists s, znth (d_uels d1) (n - 1) = Some (s, v) /\ forall k s u, znth (d_uels d) (k - 1) = Some (s, u) -> k <> n \/ 0 <= u -> znth (d_uels d1) (k - 1) = Some (s, u)).
    { unfold new_usr_uel in E. unfold user_map, set_user_map in E. destruct (znth (d_uels d) (n - 1)) as [[s u]|] eqn:Z0; [|discriminate]. cbn [obind snd fst] in E.
      destruct (Z.ltb_spec u 0).
      - destruct (int_okb _); [|discriminate]. cbn [obind d_usr set_d_uels] in E. destruct (im_set _ _ n) as [m|]; [|discriminate]. cbn [obind] in E. injection E as <- <-.
        exists s. cbn [d_uels set_d_status set_d_usr set_d_uels]. split.
        + apply znth_zset_eq. apply (znth_Some _ _ _ Z0).
        + intros k s' u' K X. destruct (Z.eq_dec k n) as [->|NE]; [rewrite Z0 in K; injection K as <- <-; lia|]. rewrite znth_zset_neq by lia. exact K.
      - injection E as <- <-. exists s. cbn [d_uels set_d_status]. auto. }
    destruct N1 as (s & N1 & N2). cbn [List.map snd]. split; [rewrite A; reflexivity|]. split.
    + intros v' n' [E'|I]; [injection E' as <- <-|apply B, I]. exists s. apply C; [exact N1|left; exact NI].
    + intros k s' u K X. apply C.
      * apply N2; [exact K|]. destruct X as [X|X]; [left; intros ->; apply X; left; reflexivity|right; exact X].
      * destruct X as [X|X]; [left; intros I; apply X; right; exact I|right; exact X].
Qed.

(** gdxGetDomainElements without a callback: the number of the labels that occur at the
    position; with a filter, of those with a user number that passes. *)
Definition element (z : zlib) (st : gst) (l : list (Z * list Z * list Z)) (pos filt : Z) (k : Z) : Prop :=
  1 <= k /\ used_at l (Z.to_nat (pos - 1)) k /\ (filt = -1 \/ exists u, user_number z st k u /\ admits st filt u).

Theorem C38_elements : forall z st n pos filt calls l name dim typ r st', reads_all z st n l -> g_mode st = fr_init -> Forall (fun t => Forall int_ok (snd (fst t))) l ->
  symbol z st n name dim typ -> 1 <= pos <= dim -> (filt = -1 \/ exists g, find_filter (d_filts (g_dic st)) filt = Some g) ->
  exec z (gdxGetDomainElements n pos filt calls) st = Done (r, st') ->
  exists ks, StronglySorted Z.lt ks /\ (forall k, In k ks <-> element z st l pos filt k) /\
    (calls = false -> r = ret_i 1 [zlen ks]) /\
    (calls = true -> exists es, r = mkResp 1 [zlen ks] [] [] (List.map (fun e => ([fst e; snd e], [], 0)) es) /\ Permutation (List.map fst es) ks /\
       StronglySorted (fun a b => snd a <= snd b) es /\ Forall (fun e => user_number z st' (fst e) (snd e)) es /\
       (forall k u, user_number z st k u -> ~ In k ks \/ 0 <= u -> user_number z st' k u)).
Proof.
  intros z st n pos filt calls l name dim typ r st' RA M IO SY PR FE H. destruct (reads_chain _ _ _ _ RA) as (s & P & MS & C & LT).
  destruct (prepare_dic _ _ _ _ _ _ _ P (zlen_nonneg l) ltac:(discriminate) M) as [SD AD]. destruct (same_dic_parts _ _ SD) as (UE & US & _ & _).
  apply symbol_iff in SY. destruct SY as (sm & ZN & DM & _). cbn [exec] in H. unfold get_domain_elements in H. cbv zeta in H.
  destruct (d_nn (g_dic st)); [|discriminate]. cbn [negb] in H. unfold get_sym in H. rewrite ZN in H. cbn [option_map snd] in H. rewrite <- DM in H.
  destruct (Z.eqb_spec dim 0); [lia|]. destruct (Z.leb_spec 1 pos); [|lia]. destruct (Z.leb_spec pos dim); [|lia]. cbn [andb negb] in H.
  set (f := if filt =? -1 then None else find_filter (d_filts (g_dic st)) filt) in *.
  assert (FF : filt = -1 /\ f = None \/ filt <> -1 /\ exists g, f = Some g /\ find_filter (d_filts (g_dic st)) filt = Some g).
  { unfold f. destruct (Z.eqb_spec filt (-1)) as [->|NE]; [left; auto|right]. split; [exact NE|]. destruct FE as [->|(g & G)]; [contradiction NE; reflexivity|]. eauto. }
  match type of H with (if ?b then _ else _) = _ => assert (EB : b = false) end.
  { destruct (Z.eqb_spec filt (-1)); [reflexivity|]. destruct FF as [[? _]|(_ & g & _ & G)]; [contradiction|]. rewrite G. reflexivity. }
  rewrite EB in H. rewrite P in H. cbn [obind] in H. destruct (dom_loop z (read_fuel z s) _ f im_new s) as [[m s4]|] eqn:DL; [|discriminate]. cbn [obind] in H.
  destruct (dom_loop_spec _ _ _ _ _ _ _ _ _ C IO im_new_inv (fun k K => ltac:(rewrite im_get_new in K; discriminate)) DL) as (P1 & P2 & P3 & P4 & P5).
  destruct (data_read_done s4) as [[b s5]|] eqn:RD; [|discriminate]. cbn [obind] in H.
  assert (U5 : d_uels (g_dic s5) = d_uels (g_dic st)).
  { unfold data_read_done in RD. cbv zeta in RD. change (g_mode (upd_wrk _ s4)) with (g_mode s4) in RD. rewrite P3, MS in RD.
    change (mode_in fr_raw_data [fr_init; fr_raw_data; fr_map_data; fr_mapr_data; fr_str_data; fr_slice]) with true in RD. cbn [negb] in RD.
    change (w_added (g_wrk (upd_wrk (fun w => set_w_sort None (set_w_cur CNull w)) s4))) with (w_added (g_wrk s4)) in RD. rewrite P5, AD in RD. change (0 =? 0) with true in RD. cbn [obind] in RD.
    injection RD as _ <-. cbn. congruence. }
  exists (marked m). split; [apply marked_sorted|]. split; [|split].
  - intros k. rewrite marked_spec by exact P2. rewrite P1, im_get_new. unfold element. split.
    + intros (K & [X|[U X]]); [discriminate|]. split; [exact K|]. split; [exact U|]. destruct FF as [[-> _]|(_ & g & EG & G)]; [left; reflexivity|right].
      destruct (X g EG) as (v & V1 & V2). exists v. split; [|exists g; auto]. apply user_number_iff. unfold user_map in V1. rewrite UE in V1.
      revert V1. destruct (znth (d_uels (g_dic st)) (k - 1)) as [[sx vx]|]; intros V1; [|discriminate]. injection V1 as <-. eauto.
    + intros (K & U & X). split; [exact K|]. right. split; [exact U|]. intros g EG. destruct FF as [[-> E0]|(NE & g' & EG' & G)]; [congruence|].
      rewrite EG in EG'. injection EG' as <-. destruct X as [X|(u & UN & g' & G' & IF)]; [contradiction|]. rewrite G in G'. injection G' as <-.
      apply user_number_iff in UN. destruct UN as (sx & ZX). exists u. split; [|exact IF]. unfold user_map. rewrite UE, ZX. reflexivity.
  - intros ->. injection H as <- _. reflexivity.
  - intros ->. destruct (number_all (marked m) (g_dic s5)) as [[vs d]|] eqn:NA; [|discriminate]. cbn [obind] in H. injection H as <- <-.
    assert (ND : NoDup (marked m)).
    { pose proof (marked_sorted m) as S1. revert S1. generalize (marked m). clear. intros q0 S1. induction S1 as [|a q S1 IH F]; constructor; [|exact IH]. intros I. rewrite Forall_forall in F. specialize (F a I). lia. }
    destruct (number_all_spec _ _ _ _ NA ND) as (A & B & D). destruct (sort_by_spec vs) as [SP SS].
    exists (List.map (fun e => (snd e, fst e)) (sort_by vs)). split; [rewrite map_map; reflexivity|]. split; [|split; [|split]].
    + rewrite map_map. cbn [fst]. rewrite <- A. apply Permutation_map. exact SP.
    + clear - SS. induction SS as [|a q S1 IH F]; cbn [List.map]; constructor; [exact IH|]. apply Forall_forall. intros x I. apply in_map_iff in I. destruct I as (y & <- & I).
      rewrite Forall_forall in F. cbn. apply F, I.
    + apply Forall_forall. intros e I. apply in_map_iff in I. destruct I as ([v k] & <- & I). cbn [fst snd]. apply user_number_iff. apply B. eapply Permutation_in; [exact SP|exact I].
    + intros k u UN X. apply user_number_iff in UN. destruct UN as (sx & ZX). apply user_number_iff. exists sx. cbn. apply D; [rewrite U5; exact ZX|exact X].
Qed.

(** ** A concrete case *)

Example C46_case : exists m ws, exec rle_zlib (gdxSymbIndxMaxLength 2) rc_read = Done (ret_i m ws, state_of (exec rle_zlib (gdxSymbIndxMaxLength 2) rc_read)) /\
  nth_error ws 0 = Some 1 /\ largest (label_length rle_zlib rc_read rc_raw 0) 1.
Proof.
  assert (E : exec rle_zlib (gdxSymbIndxMaxLength 2) rc_read = Done (ret_i 1 (1 :: 1 :: repeat 0 18), state_of (exec rle_zlib (gdxSymbIndxMaxLength 2) rc_read))) by (vm_compute; reflexivity).
  destruct (C46_index_widths _ _ _ _ _ _ rc_reads ltac:(vm_compute; reflexivity) E) as (m & ws & ER & _ & W & _). injection ER as <- <-.
  exists 1, (1 :: 1 :: repeat 0 18). split; [exact E|]. split; [reflexivity|]. exact (W O 1 eq_refl).
Qed.
Lemma C38_case_symbol : symbol rle_zlib rc_read 2 (s2z "v") 2 dt_var.
Proof. split; [discriminate|]. exists (state_of (exec rle_zlib (gdxSymbolInfo 2) rc_read)). vm_compute. reflexivity. Qed.
Example C38_case : exists ks, StronglySorted Z.lt ks /\ (forall k, In k ks <-> element rle_zlib rc_read rc_raw 2 (-1) k) /\ zlen ks = 3.
Proof.
  assert (E : exec rle_zlib (gdxGetDomainElements 2 2 (-1) false) rc_read = Done (ret_i 1 [3], state_of (exec rle_zlib (gdxGetDomainElements 2 2 (-1) false) rc_read))) by (vm_compute; reflexivity).
  refine (match C38_elements _ _ _ _ _ _ _ (s2z "v") 2 dt_var _ _ rc_reads _ _ _ _ _ E with ex_intro _ ks (conj A (conj B (conj C _))) => ex_intro _ ks (conj A (conj B _)) end).
  - vm_compute. reflexivity.
  - repeat constructor; discriminate.
  - exact C38_case_symbol.
  - lia.
  - left. reflexivity.
  - specialize (C eq_refl). injection C as C. symmetry. exact C.
Qed.

Print Assumptions C46_index_widths.
Print Assumptions C46_label_width.
Print Assumptions C46_name_width.
Print Assumptions C38_elements.
