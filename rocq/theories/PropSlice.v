(** * Properties of reading in slices: C36 *)

From Coq Require Import String Permutation Sorted.
From Verif Require Import Base Prim Values FloatAcr Records LinkedData StrHash IntMap Strings AStream BufStream State
  FileImage ApiCore ApiFile ApiWrite ApiRead Api FileFacts BlockFacts StreamFacts OpenFacts DicInv WriteInv WriteSteps Journal WriteCalls WriteTrace
  Footprint SessInv FileFlow Sessions Vocab PropErr Reopen ReadFacts ReadRecs ReadLoops Cases PropNames PropMeta PropTexts PropDomain Segment LabelFacts Buffered Contents
  Domains Wrote PropRead Readers.
Open Scope Z_scope.
Open Scope list_scope.

(** ** The specification *)

(** The label number [k] occurs at position [j], from zero, of one of the records. *)
Definition used (recs : list (list Z)) (j : nat) (k : Z) : Prop := exists keys, In keys recs /\ nth_error keys j = Some k.
(** The [c] labels that occur are numbered from zero, in increasing order. *)
Definition renumbers (recs : list (list Z)) (j : nat) (c : Z) (ren : Z -> Z) : Prop :=
  (forall k, used recs j k -> 0 <= ren k < c) /\
  (forall k k', used recs j k -> used recs j k' -> k < k' -> ren k < ren k') /\
  (forall i, 0 <= i < c -> exists k, used recs j k /\ ren k = i).
(** The indices at the positions with an empty text, renumbered. *)
Fixpoint free_keys (rens : list (Z -> Z)) (fs : list str) (keys : list Z) : list Z :=
  match rens, fs, keys with
  | ren :: rens', [] :: fs', k :: ks => ren k :: free_keys rens' fs' ks
  | _ :: rens', _ :: fs', _ :: ks => free_keys rens' fs' ks
  | _, _, _ => []
  end.
(** The given texts, with the labels of the record at the free positions. *)
Definition named_by (z : zlib) (st : gst) (f : str) (k : Z) (t : str) : Prop := (f <> [] /\ t = f) \/ (f = [] /\ label z st k t).
Inductive named (z : zlib) (st : gst) : list str -> list Z -> list str -> Prop :=
| nm_nil : forall fs, named z st fs [] []
| nm_cons : forall f fs k ks t ts, named_by z st f k t -> named z st fs ks ts -> named z st (f :: fs) (k :: ks) (t :: ts).

(** ** Marking the labels that occur *)

Definition marked_at (seen : list (list Z)) (j : nat) (m : imap) : Prop :=
  im_inv m /\ im_high m <= INT_MAX /\ (forall g, 0 <= im_get m g <-> used seen j g) /\ (forall g, used seen j g -> 0 <= g <= im_high m).
Definition marks (seen : list (list Z)) (ms : list imap) : Prop := forall j m, nth_error ms j = Some m -> marked_at seen j m.
Definition good_keys (dim : nat) (ks : list Z) : Prop := length ks = dim /\ Forall (fun k => 0 <= k <= INT_MAX) ks.

Lemma used_snoc : forall seen ks j k, used (seen ++ [ks]) j k <-> used seen j k \/ nth_error ks j = Some k.
Proof.
  intros seen ks j k. unfold used. split.
  - intros (keys & I & E). apply in_app_iff in I. destruct I as [I|[<-|[]]]; [left; eauto|right; exact E].
  - intros [(keys & I & E)|E]; [exists keys|exists ks]; rewrite in_app_iff; cbn; auto.
Qed.
Lemma mark_at : forall seen j m k, marked_at seen j m -> 0 <= k <= INT_MAX -> forall ks, nth_error ks j = Some k ->
  exists m', im_set m k 1 = Done m' /\ marked_at (seen ++ [ks]) j m'.
Proof.
  intros seen j m k (I & H & G & U) K ks E. destruct (im_set_spec m k 1 I K) as (m' & E' & I' & G' & H'). exists m'. split; [exact E'|].
  split; [exact I'|]. split; [lia|]. split; intros g.
  - rewrite G', used_snoc, <- G. destruct (Z.eqb_spec g k) as [->|N]; [split; [auto|lia]|]. split; [auto|]. intros [X|X]; [exact X|]. congruence.
  - rewrite used_snoc. intros [X|X]; [specialize (U g X); lia|]. rewrite E in X. injection X as <-. lia.
Qed.
Lemma mark_keys_ok : forall ks ms seen pre, marks seen (repeat im_new (length pre) ++ ms) \/ True -> length ks = length ms -> Forall (fun k => 0 <= k <= INT_MAX) ks ->
  (forall j m, nth_error ms j = Some m -> marked_at seen (length pre + j) m) ->
  exists ms', mark_keys ks ms = Done ms' /\ length ms' = length ms /\ forall j m, nth_error ms' j = Some m -> marked_at (seen ++ [pre ++ ks]) (length pre + j) m.
Proof.
  induction ks as [|k ks IH]; intros [|m ms] seen pre _ L F M; try discriminate.
  - exists []. split; [reflexivity|]. split; [reflexivity|]. intros [|j] m; discriminate.
  - cbn [mark_keys]. pose proof (M O m eq_refl) as M0. rewrite Nat.add_0_r in M0.
    destruct (mark_at _ _ _ k M0 (Forall_inv F) (pre ++ k :: ks)) as (m' & E & M').
    { rewrite nth_error_app2 by lia. rewrite Nat.sub_diag. reflexivity. }
    rewrite E. cbn [obind]. destruct (IH ms seen (pre ++ [k])) as (ms' & E' & L' & R).
    + right. exact I.
    + injection L as L. exact L.
    + exact (Forall_inv_tail F).
    + intros j x J. rewrite app_length. cbn [length]. replace (length pre + 1 + j)%nat with (length pre + S j)%nat by lia. apply M. exact J.
    + rewrite E'. cbn [obind]. exists (m' :: ms'). split; [reflexivity|]. split; [cbn; lia|]. intros [|j] x J.
      * injection J as <-. rewrite Nat.add_0_r. exact M'.
      * specialize (R j x J). rewrite app_length, <- app_assoc in R. cbn [length app] in R. replace (length pre + S j)%nat with (length pre + 1 + j)%nat by lia. exact R.
Qed.
Lemma mark_ok : forall dim ks ms seen, good_keys dim ks -> length ms = dim -> marks seen ms ->
  exists ms', mark_keys ks ms = Done ms' /\ length ms' = dim /\ marks (seen ++ [ks]) ms'.
Proof.
  intros dim ks ms seen [L F] LM M. destruct (mark_keys_ok ks ms seen []) as (ms' & E & L' & R); [right; exact I|lia|exact F|exact M|].
  exists ms'. split; [exact E|]. split; [lia|]. exact R.
Qed.

Section Z.
Context (z : zlib).

Lemma slice_loop_ok : forall F n dim todo fuel ms seen st, source z F n todo st -> quiet todo st -> (length todo < fuel)%nat ->
  Forall (fun it => good_keys dim (snd (fst it))) todo -> length ms = dim -> marks seen ms ->
  exists ms' st1, slice_loop z fuel ms st = Done (ms', st1) /\ ReadRecs.kept st st1 /\ length ms' = dim /\ marks (seen ++ List.map (fun it : item => snd (fst it)) todo) ms'.
Proof.
  intros F n dim. induction todo as [|[[af ks] g] todo IH]; intros [|fuel] ms seen st S Q FU G L M; cbn [length] in FU; try lia; cbn [slice_loop].
  - destruct (source_end _ _ _ _ S) as (st1 & E & K & _). rewrite E. cbn [obind]. exists ms, st1. split; [reflexivity|]. split; [exact K|]. split; [exact L|].
    cbn. rewrite app_nil_r. exact M.
  - destruct (source_read _ _ _ _ _ _ _ _ S Q) as (st1 & S1 & CK & _ & K & Q1 & E). rewrite E. cbn [obind]. rewrite CK.
    destruct (mark_ok dim ks ms seen (Forall_inv G) L M) as (ms1 & E1 & L1 & M1). rewrite E1. cbn [obind].
    destruct (IH fuel ms1 (seen ++ [ks]) st1 S1 Q1 ltac:(lia) (Forall_inv_tail G) L1 M1) as (ms2 & st2 & E2 & K2 & L2 & M2).
    exists ms2, st2. split; [exact E2|]. split; [eapply kept_trans; eassumption|]. split; [exact L2|].
    rewrite <- app_assoc in M2. exact M2.
Qed.

(** ** Numbering them *)

Definition numbered_at (recs : list (list Z)) (j : nat) (m rv : imap) (c : Z) : Prop :=
  renumbers recs j c (im_get m) /\ forall k, used recs j k -> im_get rv (im_get m k) = k.

Lemma compact_ok : forall recs j k n cnt m rv, im_inv m -> im_inv rv -> 0 <= cnt <= n -> n + Z.of_nat k <= INT_MAX + 1 ->
  (forall g, used recs j g -> 0 <= g < n + Z.of_nat k) ->
  (forall g, n <= g -> (0 <= im_get m g <-> used recs j g)) ->
  (forall g, used recs j g -> g < n -> 0 <= im_get m g < cnt /\ im_get rv (im_get m g) = g) ->
  (forall g g', used recs j g -> used recs j g' -> g < g' -> g' < n -> im_get m g < im_get m g') ->
  (forall i, 0 <= i < cnt -> exists g, used recs j g /\ g < n /\ im_get m g = i) ->
  exists m' rv' c, compact k n cnt m rv = Done (m', rv', c) /\ numbered_at recs j m' rv' c /\ 0 <= c.
Proof.
  intros recs j. induction k as [|k IH]; intros n cnt m rv I1 I2 C N R H1 H2 H3 H4; cbn [compact].
  - exists m, rv, cnt. split; [reflexivity|]. rewrite Z.add_0_r in *. split; [|lia]. split; [split; [|split]|].
    + intros g U. apply H2; [exact U|]. apply R in U. lia.
    + intros g g' U U' LT. apply H3; try assumption. apply R in U'. lia.
    + intros i LI. destruct (H4 i LI) as (g & U & _ & E). eauto.
    + intros g U. apply H2; [exact U|]. apply R in U. lia.
  - assert (NK : n + Z.of_nat (S k) = n + 1 + Z.of_nat k) by lia. rewrite NK in *. destruct (Z.leb_spec 0 (im_get m n)) as [P|P].
    + assert (Un : used recs j n) by (apply H1; [lia|exact P]).
      destruct (im_set_spec m n cnt I1 ltac:(lia)) as (m' & E & I1' & G & _). rewrite E. cbn [obind].
      destruct (im_set_spec rv cnt n I2 ltac:(lia)) as (rv' & E' & I2' & G' & _). rewrite E'. cbn [obind].
      apply IH; try assumption; try lia.
      * intros g LE. rewrite G. destruct (Z.eqb_spec g n); [lia|]. apply H1. lia.
      * intros g U LT. rewrite !G, G'. destruct (Z.eqb_spec g n) as [->|].
        -- rewrite Z.eqb_refl. lia.
        -- destruct (H2 g U ltac:(lia)) as [A B]. destruct (Z.eqb_spec (im_get m g) cnt); [lia|]. split; [lia|exact B].
      * intros g g' U U' L1 L2. rewrite !G. destruct (Z.eqb_spec g n); [lia|]. destruct (Z.eqb_spec g' n) as [->|]; [apply H2; [exact U|lia]|apply H3; try assumption; lia].
      * intros i LI. destruct (Z.eq_dec i cnt) as [->|].
        -- exists n. split; [exact Un|]. split; [lia|]. rewrite G, Z.eqb_refl. reflexivity.
        -- destruct (H4 i ltac:(lia)) as (g & U & LT & E1). exists g. split; [exact U|]. split; [lia|]. rewrite G. destruct (Z.eqb_spec g n); [lia|exact E1].
    + assert (Un : ~ used recs j n) by (rewrite <- (H1 n); lia).
      apply IH; try assumption; try lia.
      * intros g LE. apply H1. lia.
      * intros g U LT. apply H2; [exact U|]. destruct (Z.eq_dec g n); [subst; contradiction|lia].
      * intros g g' U U' L1 L2. apply H3; try assumption. destruct (Z.eq_dec g' n); [subst; contradiction|lia].
      * intros i LI. destruct (H4 i LI) as (g & U & LT & E1). exists g. split; [exact U|]. split; [lia|exact E1].
Qed.
Lemma compact_one : forall recs j m, marked_at recs j m ->
  exists m' rv c, compact (Z.to_nat (im_high m + 1)) 0 0 m im_new = Done (m', rv, c) /\ numbered_at recs j m' rv c /\ 0 <= c.
Proof.
  intros recs j m (I1 & H & G & U). pose proof I1 as [_ HI]. apply compact_ok.
  - exact I1.
  - apply im_new_inv.
  - lia.
  - lia.
  - intros g X. specialize (U g X). lia.
  - intros g _. apply G.
  - intros g X L. specialize (U g X). lia.
  - intros g g' X X' L L'. specialize (U g X). lia.
  - intros i L. lia.
Qed.
Lemma compact_all_ok : forall recs ms j0, (forall j m, nth_error ms j = Some m -> marked_at recs (j0 + j) m) ->
  exists ms' rvs cs, compact_all ms = Done (ms', rvs, cs) /\ length ms' = length ms /\ length rvs = length ms /\ length cs = length ms /\
    forall j m, nth_error ms' j = Some m -> exists rv c, nth_error rvs j = Some rv /\ nth_error cs j = Some c /\ numbered_at recs (j0 + j) m rv c.
Proof.
  intros recs. induction ms as [|m ms IH]; intros j0 M; cbn [compact_all].
  - exists [], [], []. repeat (split; [reflexivity|]). intros [|j] m; discriminate.
  - destruct (compact_one recs (j0 + 0) m (M O m eq_refl)) as (m' & rv & c & E & N & _). rewrite E. cbn [obind].
    destruct (IH (S j0)) as (ms' & rvs & cs & E' & L1 & L2 & L3 & R).
    { intros j x J. replace (S j0 + j)%nat with (j0 + S j)%nat by lia. apply M. exact J. }
    rewrite E'. cbn [obind]. exists (m' :: ms'), (rv :: rvs), (c :: cs). split; [reflexivity|]. cbn [length]. do 3 (split; [lia|]).
    intros [|j] x J; cbn [nth_error] in *.
    + injection J as <-. eauto.
    + destruct (R j x J) as (rv' & c' & A & B & D). exists rv', c'. split; [exact A|]. split; [exact B|]. replace (j0 + S j)%nat with (S j0 + j)%nat by lia. exact D.
Qed.

(** ** Reading in slices *)

(** The object [s] reads symbol [n], seen by the object [st], in slices. *)
Record sliced (F : list Z) (tab : list (str * sym)) (kk n : Z) (dim : nat) (ms rvs : list imap) (st s : gst) : Prop := mkSliced {
  sl_file : reads_file z F tab kk s;
  sl_mode : g_mode s = fr_slice;
  sl_synr : s_synr (g_sli s) = n;
  sl_dim : w_dim (g_wrk s) = dim;
  sl_env : g_env s = g_env st;
  sl_acros : d_acros (g_dic s) = d_acros (g_dic st);
  sl_uels : d_uels (g_dic s) = d_uels (g_dic st);
  sl_indx : exists r, s_indx (g_sli s) = ms ++ r;
  sl_rev : exists r, s_rev (g_sli s) = rvs ++ r
}.

Lemma file_fields : forall F tab k a b, reads_file z F tab k a -> in_read b -> g_fil b = g_fil a -> g_dic b = g_dic a -> reads_file z F tab k b.
Proof. intros F tab k a b [] M E1 E2. constructor; rewrite ?E1, ?E2; assumption. Qed.

Lemma slice_start_ok : forall F tab k st n dim items, reads_file z F tab k st -> g_mode st = fr_init -> has_items z F tab k n dim items -> quiet items st ->
  Forall (fun it => good_keys dim (snd (fst it))) items -> call_ok (gdxDataReadSliceStart n) ->
  exists ms rvs cs s, exec z (gdxDataReadSliceStart n) st = Done (ret_i 1 (cs ++ repeat 0 (MAX_DIM - dim)), s) /\
    sliced F tab k n dim ms rvs st s /\ length ms = dim /\ length rvs = dim /\ length cs = dim /\
    forall j m, nth_error ms j = Some m -> exists rv c, nth_error rvs j = Some rv /\ nth_error cs j = Some c /\
      numbered_at (List.map (fun it : item => snd (fst it)) items) j m rv c.
Proof.
  intros F tab k st n dim items R MO HI Q G OK. set (keys := List.map (fun it : item => snd (fst it)) items).
  assert (X : exists ms rvs cs s, exec z (gdxDataReadSliceStart n) st = Done (ret_i 1 (cs ++ repeat 0 (MAX_DIM - dim)), s) /\
    (g_mode s = fr_slice /\ s_synr (g_sli s) = n /\ w_dim (g_wrk s) = dim /\ g_env s = g_env st /\ d_acros (g_dic s) = d_acros (g_dic st) /\
     d_uels (g_dic s) = d_uels (g_dic st) /\ (exists r, s_indx (g_sli s) = ms ++ r) /\ (exists r, s_rev (g_sli s) = rvs ++ r)) /\
    length ms = dim /\ length rvs = dim /\ length cs = dim /\
    forall j m, nth_error ms j = Some m -> exists rv c, nth_error rvs j = Some rv /\ nth_error cs j = Some c /\ numbered_at keys j m rv c).
  { cbn [exec]. unfold slice_start. cbv zeta. set (sta := upd set_g_sli g_sli (set_s_synr n) st).
    assert (Ra : reads_file z F tab k sta) by (eapply file_fields; [exact R| | |]; try reflexivity; exact (rf_mode _ _ _ _ _ R)).
    destruct (start_items z F tab k sta n dim items fr_raw_data Ra MO HI ltac:(discriminate)) as (s1 & E1 & S1 & B1). rewrite E1. cbn [obind].
    assert (WD : w_dim (g_wrk s1) = dim) by (rewrite (bg_dim _ _ _ _ B1), repeat_length; reflexivity). rewrite WD.
    destruct (slice_loop_ok F n dim items (read_fuel z s1) (repeat im_new dim) [] s1 S1 (begun_quiet _ _ _ sta _ B1 Q) (source_fuel z _ _ _ _ S1) G (repeat_length _ _)) as (ms & s2 & E2 & K2 & L2 & M2).
    { intros j m J. apply nth_error_In in J. apply repeat_spec in J. subst m. split; [apply im_new_inv|]. split; [cbn; unfold INT_MAX; lia|]. split.
      - intros g. rewrite im_get_new. split; [lia|]. intros (x & [] & _).
      - intros g (x & [] & _). }
    rewrite E2. cbn [obind].
    destruct (read_ends fr_raw_data _ sta s1 s2 ltac:(cbn; tauto) B1 K2) as (s3 & E3 & N & W3). rewrite E3. cbn [obind]. rewrite repeat_length in W3.
    destruct (compact_all_ok keys ms 0 M2) as (ms' & rvs & cs & E4 & L3 & L4 & L5 & NB). rewrite E4. cbn [obind].
    destruct N as [N1 N2 N3 N4 N5 N6]. destruct (same_dic_parts _ _ N4) as (U & _ & A & _).
    exists ms', rvs, cs. eexists. split; [reflexivity|]. rewrite L3, L4, L5. split; [|auto].
    cbn. split; [reflexivity|]. rewrite N6, N3, U, A. repeat (split; [reflexivity||exact W3|]). eauto. }
  destruct X as (ms & rvs & cs & s & E & (X1 & X2 & X3 & X4 & X5 & X6 & X7 & X8) & L). exists ms, rvs, cs, s. split; [exact E|]. split; [|exact L].
  constructor; try assumption. eapply (reads_call z (gdxDataReadSliceStart n)); try eassumption. reflexivity.
Qed.

Lemma slice_keys_free : forall d fs ms r keys, length keys = length ms -> slice_keys (filter_nrs d (firstn (length ms) fs)) (ms ++ r) keys = free_keys (List.map im_get ms) fs keys.
Proof.
  intros d. induction fs as [|f fs IH]; intros [|m ms] r [|k ks] L; try discriminate L; try reflexivity.
  injection L as L. cbn [length firstn filter_nrs List.map app slice_keys free_keys]. specialize (IH ms r ks L). unfold filter_nrs in IH.
  destruct f as [|c f]; cbn [empty_str].
  - f_equal. exact IH.
  - exact IH.
Qed.
Lemma slice_uels_ok : forall st ms fs rvs er rr keys, length keys = length ms -> length rvs = length ms -> (length ms <= length fs)%nat ->
  (forall j m k, nth_error ms j = Some m -> nth_error keys j = Some k -> 0 <= k /\ exists rv, nth_error rvs j = Some rv /\ im_get rv (im_get m k) = k) ->
  Forall (fun k => exists t, label z st k t) keys ->
  exists ts, slice_uels (g_dic st) (length ms) (firstn (length ms) fs ++ er) (rvs ++ rr) (free_keys (List.map im_get ms) fs keys) = Done ts /\ named z st fs keys ts.
Proof.
  intros st. induction ms as [|m ms IH]; intros fs rvs er rr keys L1 L2 L3 H LB.
  - destruct keys; [|discriminate]. exists []. split; [reflexivity|constructor].
  - destruct keys as [|k ks]; [discriminate|]. destruct rvs as [|rv rvs]; [discriminate|]. destruct fs as [|f fs]; [cbn in L3; lia|].
    injection L1 as L1. injection L2 as L2. cbn [length] in L3. assert (L3' : (length ms <= length fs)%nat) by lia.
    destruct (IH fs rvs er rr ks L1 L2 L3') as (ts & E & N).
    { intros j m' k' J1 J2. exact (H (S j) m' k' J1 J2). }
    { exact (Forall_inv_tail LB). }
    cbn [length firstn app slice_uels List.map free_keys]. destruct f as [|c f]; cbn [empty_str negb].
    + destruct (H O m k eq_refl eq_refl) as (K & rv' & RV & G). injection RV as <-. rewrite G. destruct (Z.ltb_spec k 0); [lia|].
      destruct (Forall_inv LB) as (t & T). pose proof T as T'. apply label_iff in T'. rewrite T'. cbn [obind]. rewrite E. cbn [obind].
      exists (t :: ts). split; [reflexivity|]. constructor; [right; auto|exact N].
    + rewrite E. cbn [obind]. exists ((c :: f) :: ts). split; [reflexivity|]. constructor; [left; split; [discriminate|reflexivity]|exact N].
Qed.

Definition slice_resp (p : list Z -> bool) (rens : list (Z -> Z)) (fs : list str) (l : list (Z * list Z * list Z)) (free : Z) : resp :=
  mkResp 1 [free] [] [] (List.map (fun t => (free_keys rens fs (snd (fst t)), snd t, 0)) (filter (fun t => p (snd (fst t))) l)).
Definition free_count (dim : nat) (fs : list str) : Z := zlen (filter empty_str (firstn dim fs)).

Lemma read_slice_ok : forall F tab k st n dim items ms rvs s fs, sliced F tab k n dim ms rvs st s -> has_items z F tab k n dim items -> quiet items st ->
  Forall (fun it => good_keys dim (snd (fst it))) items -> length ms = dim -> (dim <= length fs)%nat -> call_ok (gdxDataReadSlice fs) ->
  let nrs := filter_nrs (g_dic st) (firstn dim fs) in
  if all_known nrs
  then exists s', exec z (gdxDataReadSlice fs) s = Done (slice_resp (fits_filter nrs) (List.map im_get ms) fs (List.map (as_item st) items) (free_count dim fs), s') /\
    sliced F tab k n dim ms rvs st s' /\ exists er, s_elems (g_sli s') = firstn dim fs ++ er
  else exists s', exec z (gdxDataReadSlice fs) s = Done (ret_i 0 [free_count dim fs], s').
Proof.
  intros F tab k st n dim items ms rvs s fs SL HI Q G LM LF OK nrs. destruct SL as [S1 S2 S3 S4 S5 S6 S7 [r7 S8] [r8 S9]].
  assert (NR : filter_nrs (g_dic s) (firstn dim fs) = nrs).
  { unfold nrs, filter_nrs. apply map_ext. intros x. destruct (empty_str x); [reflexivity|]. f_equal. unfold uel_find. rewrite S7. reflexivity. }
  pose proof (eq_refl (exec z (gdxDataReadSlice fs) s)) as EX. unfold exec in EX at 2. fold exec in EX. unfold read_slice, checked in EX. rewrite S2 in EX.
  change (mode_in fr_slice [fr_slice]) with true in EX. cbn [negb] in EX. cbv zeta in EX. rewrite S4 in EX.
  destruct (Nat.ltb_spec (length fs) dim); [lia|]. rewrite NR in EX. fold (free_count dim fs) in EX.
  set (sta := set_g_mode fr_init _) in EX.
  destruct (all_known nrs) eqn:AK; cbn [negb] in EX; [|eexists; exact EX].
  change (s_synr (g_sli sta)) with (s_synr (g_sli s)) in EX. rewrite S3 in EX.
  assert (Ra : reads_file z F tab k sta) by (eapply file_fields; [exact S1|left; cbn; tauto|reflexivity|reflexivity]).
  assert (Qa : quiet items sta) by (destruct Q as [Q|Q]; [left; change (g_env sta) with (g_env s); rewrite S5; exact Q|right; exact Q]).
  destruct (start_items z F tab k sta n dim items fr_slice Ra eq_refl HI ltac:(discriminate)) as (s1 & E1 & SR1 & B1). rewrite E1 in EX. cbn [obind] in EX.
  destruct (read_loop_ok z F n (fits_filter nrs) items (read_fuel z s1) None [] s1 SR1 (begun_quiet _ _ _ _ _ B1 Qa) (source_fuel z _ _ _ _ SR1)) as (s2 & E2 & K2).
  rewrite E2 in EX. cbn [obind app] in EX.
  assert (SI : g_sli s2 = g_sli sta) by (rewrite (kp_sli _ _ K2), (bg_sli _ _ _ _ B1); reflexivity).
  assert (RS : forall cs, List.map (fun c : list Z * list Z * Z => (slice_keys nrs (s_indx (g_sli s2)) (fst (fst c)), snd (fst c), 0)) (delivered s1 (fits_filter nrs) None items) = cs ->
     cs = List.map (fun t => (free_keys (List.map im_get ms) fs (snd (fst t)), snd t, 0)) (filter (fun t => fits_filter nrs (snd (fst t))) (List.map (as_item st) items))).
  { intros cs <-. unfold delivered. cbn [cut]. rewrite map_map, filter_map_swap, map_map. apply map_ext_in. intros [[af ks] g] I. cbn [fst snd as_item].
    apply filter_In in I. destruct I as [I _]. rewrite Forall_forall in G. destruct (G _ I) as [LK _]. cbn [fst snd] in LK.
    rewrite SI. change (s_indx (g_sli sta)) with (s_indx (g_sli s)). rewrite S8. unfold nrs. rewrite <- LM at 1. rewrite slice_keys_free by congruence.
    rewrite (begun_shows _ _ _ _ _ B1). unfold shows. change (g_env sta) with (g_env s). change (g_dic sta) with (g_dic s). rewrite S5, S6. reflexivity. }
  rewrite (RS _ eq_refl) in EX. exists s2. split; [rewrite EX; reflexivity|].
  destruct (same_dic_parts _ _ (same_dic_trans _ _ _ (bg_dic _ _ _ _ B1) (kp_dic _ _ K2))) as (U & _ & A & _).
  split.
  - constructor.
    + eapply (reads_call z (gdxDataReadSlice fs)); [reflexivity|exact OK|exact S1|exact EX].
    + rewrite (kp_mode _ _ K2). apply (bg_mode _ _ _ _ B1).
    + rewrite SI. exact S3.
    + rewrite (kp_dim _ _ K2), (bg_dim _ _ _ _ B1), repeat_length. reflexivity.
    + rewrite (kp_env _ _ K2), (bg_env _ _ _ _ B1). exact S5.
    + rewrite A. exact S6.
    + rewrite U. exact S7.
    + rewrite SI. eauto.
    + rewrite SI. eauto.
  - rewrite SI. eexists. reflexivity.
Qed.

Definition slice_call (c : call) : Prop := match c with gdxDataReadSlice _ | gdxDataSliceUELS _ => True | _ => False end.
Lemma slices_keep : forall F tab k st n dim items ms rvs, has_items z F tab k n dim items -> quiet items st ->
  Forall (fun it => good_keys dim (snd (fst it))) items -> length ms = dim ->
  forall cs rs s s', sliced F tab k n dim ms rvs st s -> then_calls z cs rs s s' -> Forall slice_call cs -> Forall (fun r => r_code r = 1) rs -> sliced F tab k n dim ms rvs st s'.
Proof.
  intros F tab k st n dim items ms rvs HI Q G LM. induction cs as [|c cs IH]; intros rs s s' SL [FA R] FC FR.
  - cbn in R. injection R as _ <-. exact SL.
  - destruct (run_cons _ _ _ _ _ _ R) as (r & s1 & rs' & E & R' & ER). subst rs. destruct (Forall_inv FA) as [_ OK]. pose proof (Forall_inv_tail FA) as FA'. pose proof (Forall_inv FC) as SC. pose proof (Forall_inv_tail FC) as FC'. pose proof (Forall_inv FR) as C1. pose proof (Forall_inv_tail FR) as FR'. cbv beta in C1.
    eapply IH; [|split; [exact FA'|exact R']|exact FC'|exact FR']. destruct c; try (exfalso; exact SC).
    + destruct (Nat.ltb_spec (length labels) dim) as [LT|LE].
      { cbn [exec] in E. unfold read_slice, checked in E. rewrite (sl_mode _ _ _ _ _ _ _ _ _ SL), (sl_dim _ _ _ _ _ _ _ _ _ SL) in E.
        change (mode_in fr_slice [fr_slice]) with true in E. cbn [negb] in E. cbv zeta in E. destruct (Nat.ltb_spec (length labels) dim); [discriminate|lia]. }
      pose proof (read_slice_ok _ _ _ _ _ _ _ _ _ _ _ SL HI Q G LM LE OK) as X. cbv zeta in X. destruct (all_known _).
      * destruct X as (x & X1 & X2 & _). rewrite X1 in E. injection E as _ <-. exact X2.
      * destruct X as (x & X1). rewrite X1 in E. injection E as <- _. discriminate C1.
    + cbn [exec] in E. unfold data_slice_uels, checked in E. rewrite (sl_mode _ _ _ _ _ _ _ _ _ SL) in E. change (mode_in fr_slice [fr_slice]) with true in E. cbn [negb] in E.
      destruct (slice_uels _ _ _ _ _); [|discriminate]. cbn [obind] in E. injection E as _ <-. exact SL.
Qed.

Lemma holds_keys : forall st n dim typ wt recs, holds z st n dim typ wt recs -> Forall (fun kv => good_keys (Z.to_nat dim) (fst kv)) recs.
Proof.
  intros st n dim typ wt recs (_ & G & _ & _ & F & tab & k & nm & sy & _ & _ & SD & _ & dsize & mms & m & bs & last & _ & LM & BO & _ & RO & _).
  rewrite Forall_forall in *. intros kv I. destruct (G kv I) as (L & N & _). split; [exact L|].
  assert (I' : In (fst kv, List.map (classify (wt ++ tail_values)) (snd kv)) (List.map (fun kv => (fst kv, List.map (classify (wt ++ tail_values)) (snd kv))) recs)) by (apply in_map_iff; eauto).
  destruct (RO _ I') as (IB & _). cbn [fst] in IB. clear -IB BO. revert BO. induction IB as [|mm x mms keys B IB IH]; intros BO; [constructor|].
  constructor; [|apply IH; exact (Forall_inv_tail BO)]. pose proof (Forall_inv BO) as X. unfold in_bounds in B. cbv beta in X. lia.
Qed.
Lemma as_read_keys : forall f o recs, List.map (fun t : Z * list Z * list Z => snd (fst t)) (as_read f o recs) = List.map fst recs.
Proof. intros f o recs. revert o. induction recs as [|[k v] recs IH]; intros o; cbn; [reflexivity|]. rewrite IH. reflexivity. Qed.

End Z.

(** ** C36 *)

(** The symbol [n] is read in slices: gdxDataReadSliceStart, then any number of slices [cs].
    The answer to the first call counts, for every position, the labels that occur there.
    A slice with a text that is no label is refused; another one gives all the records with
    the given labels, in their order, and only these.  The indices at the free positions
    are renumbered, one-to-one and onto zero to the count, in increasing order.
    gdxDataSliceUELS finds the labels of such a record again. *)
Theorem C36_slices : forall z st2 n dim typ wt recs rcs rrs st3 cs rs s, wrote z st2 n dim typ wt recs -> some_record dim recs ->
  then_calls z rcs rrs st2 st3 -> fresh rcs rrs -> no_acronyms wt recs \/ no_numbering z st3 ->
  then_calls z (gdxDataReadSliceStart n :: cs) rs st3 s -> Forall slice_call cs -> Forall (fun r => r_code r = 1) rs ->
  exists f rens counts, translates wt (reader_values rcs rrs standard_values) f /\
    length rens = Z.to_nat dim /\ length counts = Z.to_nat dim /\
    (forall j ren c, nth_error rens j = Some ren -> nth_error counts j = Some c -> renumbers (List.map fst recs) j c ren) /\
    hd (ret 0) rs = ret_i 1 (counts ++ repeat 0 (20 - Z.to_nat dim)) /\
    forall fs, dim <= zlen fs -> call_ok (gdxDataReadSlice fs) ->
      (Exists (unknown_label z st3) (firstn (Z.to_nat dim) fs) /\ exists s', exec z (gdxDataReadSlice fs) s = Done (ret_i 0 [free_count (Z.to_nat dim) fs], s')) \/
      (~ Exists (unknown_label z st3) (firstn (Z.to_nat dim) fs) /\ exists p s',
         (forall kv, In kv recs -> (p (fst kv) = true <-> passes z st3 fs (fst kv))) /\
         exec z (gdxDataReadSlice fs) s = Done (slice_resp p rens fs (as_read f None recs) (free_count (Z.to_nat dim) fs), s') /\
         forall kv, In kv recs -> Forall (fun k => exists t, label z st3 k t) (fst kv) ->
           exists ts, exec z (gdxDataSliceUELS (free_keys rens fs (fst kv))) s' = Done (ret_s 1 ts, s') /\ named z st3 fs (fst kv) ts).
Proof.
  intros z st2 n dim typ wt recs rcs rrs st3 cs rs s W SR TC FR NA TS FC F1.
  pose proof (labels_stay_distinct _ _ _ _ _ _ _ _ _ _ W TC) as DL.
  destruct (wrote_holds _ _ _ _ _ _ _ W) as (H & T & M & _). pose proof (fresh_mode _ _ _ _ _ TC FR M) as M3.
  destruct (tabs_then _ _ _ _ _ _ _ TC T) as (t & T3). pose proof (holds_then _ _ _ _ _ _ _ _ _ _ TC H) as H3.
  assert (NA' : no_acronyms wt recs \/ e_nextacr (g_env st3) <= 0) by (destruct NA as [NA|NA]; [left; exact NA|right; eapply no_numbering_env; exact NA]).
  destruct (holds_items _ _ _ _ _ _ _ _ _ H3 T3 NA' SR) as (F & tab & k & items & Q & HI & IT). destruct (IT st3 eq_refl eq_refl) as [AI QI].
  assert (KS : List.map (fun it : item => snd (fst it)) items = List.map fst recs).
  { rewrite <- (as_read_keys (sees st3 wt) None recs), <- AI, map_map. apply map_ext. intros [[a b] c]. reflexivity. }
  assert (GK : Forall (fun it : item => good_keys (Z.to_nat dim) (snd (fst it))) items).
  { apply Forall_forall. intros it I. pose proof (holds_keys _ _ _ _ _ _ _ H3) as G. rewrite Forall_forall in G.
    assert (I' : In (snd (fst it)) (List.map (fun it : item => snd (fst it)) items)) by (apply in_map_iff; eauto). rewrite KS in I'. apply in_map_iff in I'.
    destruct I' as (kv & <- & I'). apply G. exact I'. }
  destruct TS as [FA R]. destruct (run_cons _ _ _ _ _ _ R) as (r & s1 & rs' & E & R' & ER). subst rs. destruct (Forall_inv FA) as [_ OK]. pose proof (Forall_inv_tail FA) as FA'.
  destruct (slice_start_ok z F tab k st3 n _ items Q M3 HI QI GK OK) as (ms & rvs & cnts & s1' & E1 & SL & L1 & L2 & L3 & NB). rewrite E1 in E. injection E as <- <-.
  rewrite KS in NB. pose proof (slices_keep z F tab k st3 n _ items ms rvs HI QI GK L1 _ _ _ _ SL (conj FA' R') FC (Forall_inv_tail F1)) as SL'.
  exists (sees st3 wt), (List.map im_get ms), cnts. split; [intros x U A; eapply sees_plain; try eassumption; apply H|]. split; [rewrite map_length; exact L1|].
  split; [exact L3|]. split; [|split].
  - intros j ren c J1 J2. destruct (nth_error ms j) as [m|] eqn:EM; [|rewrite nth_error_map, EM in J1; discriminate]. rewrite nth_error_map, EM in J1. injection J1 as <-.
    destruct (NB j m EM) as (rv & c' & _ & C & N & _). rewrite J2 in C. injection C as <-. exact N.
  - reflexivity.
  - intros fs LF OKF. assert (LF' : (Z.to_nat dim <= length fs)%nat) by (unfold zlen in LF; lia).
    pose proof (read_slice_ok z _ _ _ _ _ _ _ _ _ _ _ SL' HI QI GK L1 LF' OKF) as X. cbv zeta in X. set (nrs := filter_nrs _ _) in X. destruct (all_known nrs) eqn:AK.
    + right. split; [intros Y; apply (unknown_filter z st3) in Y; unfold nrs in AK; congruence|]. destruct X as (s' & E' & S' & er & EE). rewrite AI in E'.
      exists (fits_filter nrs), s'. split; [|split; [exact E'|]].
      * intros kv I. unfold nrs. rewrite (fits_passes z st3 DL _ _ AK). pose proof (holds_keys _ _ _ _ _ _ _ H3) as G. rewrite Forall_forall in G. destruct (G kv I) as [LK _].
        split; intros P j fj kj J1 J2.
        -- apply (P j fj kj); [|exact J2]. rewrite nth_error_firstn. assert (j < length (fst kv))%nat by (apply nth_error_Some; congruence).
           destruct (Nat.ltb_spec j (Z.to_nat dim)); [exact J1|lia].
        -- rewrite nth_error_firstn in J1. destruct (Nat.ltb_spec j (Z.to_nat dim)); [|discriminate]. apply (P j fj kj); assumption.
      * intros kv I LB. pose proof (holds_keys _ _ _ _ _ _ _ H3) as G. rewrite Forall_forall in G. destruct (G kv I) as [LK GK'].
        destruct (sl_rev _ _ _ _ _ _ _ _ _ _ S') as (rr & RR).
        assert (TX : label_texts s' = label_texts st3) by (unfold label_texts; rewrite (sl_uels _ _ _ _ _ _ _ _ _ _ S'); reflexivity).
        destruct (slice_uels_ok z s' ms fs rvs er rr (fst kv)) as (ts & ET & NT); [congruence|congruence|lia| | |].
        -- intros j m kx J1 J2. rewrite Forall_forall in GK'. split; [apply (GK' kx); eapply nth_error_In; exact J2|].
           destruct (NB j m J1) as (rv & c' & RV & _ & _ & B). exists rv. split; [exact RV|]. apply B. exists (fst kv). split; [apply in_map; exact I|exact J2].
        -- eapply Forall_impl; [|exact LB]. intros a (tx & TL). exists tx. apply label_iff in TL. apply label_iff. rewrite (text_texts s' st3 a TX). exact TL.
        -- exists ts. split.
           ++ cbn [exec]. unfold data_slice_uels, checked. rewrite (sl_mode _ _ _ _ _ _ _ _ _ _ S'), (sl_dim _ _ _ _ _ _ _ _ _ _ S'), EE, RR.
              change (mode_in fr_slice [fr_slice]) with true. cbn [negb]. rewrite <- L1. rewrite ET. reflexivity.
           ++ clear -NT TX. induction NT as [|f fs k ks tt ts NB NT IH]; constructor; [|exact IH]. destruct NB as [NB|[-> NB]]; [left; exact NB|right; split; [reflexivity|]].
              apply label_iff in NB. apply label_iff. rewrite <- (text_texts s' st3 k TX). exact NB.
    + left. split; [apply (unknown_filter z st3); exact AK|exact X].
Qed.

(** ** A concrete case *)

Lemma rc_label : forall k t, label rle_zlib rc_read k t <-> znth [s2z "a"; s2z "B"; s2z "c"] (k - 1) = Some t.
Proof.
  intros k t. rewrite label_iff. unfold uel_text. assert (D : d_uels (g_dic rc_read) = List.map (fun s => (s, -1)) [s2z "a"; s2z "B"; s2z "c"]) by (vm_compute; reflexivity).
  rewrite D. clear D. rewrite znth_map. destruct (znth _ _); reflexivity.
Qed.
Lemma rc_slices : exists s, exec rle_zlib (gdxDataReadSliceStart 2) rc_read = Done (ret_i 1 (2 :: 3 :: repeat 0 18), s).
Proof. eexists. vm_compute. reflexivity. Qed.
Example C36_case : exists f ren1 ren2 p s s', exec rle_zlib (gdxDataReadSliceStart 2) rc_read = Done (ret_i 1 (2 :: 3 :: repeat 0 18), s) /\
  renumbers [[1; 2]; [1; 3]; [2; 1]] 1 3 ren2 /\
  p [1; 2] = true /\ p [2; 1] = false /\
  exec rle_zlib (gdxDataReadSlice [s2z "A"; s2z ""]) s = Done (slice_resp p [ren1; ren2] [s2z "A"; s2z ""] (as_read f None rc_records) 1, s') /\
  exec rle_zlib (gdxDataSliceUELS [ren2 3]) s' = Done (ret_s 1 [s2z "A"; s2z "c"], s').
Proof.
  destruct rc_slices as (s & E). pose proof rc_label as L. pose proof rc_wrote as W. revert E L W. generalize rc_read. intros rd E L W.
  destruct (C36_slices rle_zlib rd 2 2 dt_var rc_values rc_records [] [] rd [] [ret_i 1 (2 :: 3 :: repeat 0 18)] s (wrote_now _ _ _ _ _ _ _ (or_introl W))) as (f & rens & counts & _ & LR & LC & RN & HD & SL).
  - left. discriminate.
  - split; [constructor|]. reflexivity.
  - left. reflexivity.
  - left. repeat constructor.
  - split; [|cbn [run]; rewrite E; reflexivity]. constructor; [|constructor]. split; [reflexivity|]. apply call_okb_ok. vm_compute. reflexivity.
  - constructor.
  - repeat constructor.
  - destruct rens as [|ren1 [|ren2 [|]]]; try discriminate LR. destruct counts as [|c1 [|c2 [|]]]; try discriminate LC. injection HD as <- <-.
    destruct (SL [s2z "A"; s2z ""]) as [[X _]|(_ & p & s' & P & E' & U)].
    + discriminate.
    + apply call_okb_ok. vm_compute. reflexivity.
    + exfalso. apply Exists_cons in X. destruct X as [[_ X]|X].
      * apply (X 1 (s2z "a")); [apply L; reflexivity|vm_compute; reflexivity].
      * apply Exists_cons in X. destruct X as [[X _]|X]; [apply X; reflexivity|inversion X].
    + exists f, ren1, ren2, p, s, s'. split; [exact E|]. split; [exact (RN 1%nat _ _ eq_refl eq_refl)|]. split; [|split; [|split; [exact E'|]]].
      * refine (proj2 (P ([1; 2], [dbl_2_5; nan_1; plus_inf; minus_inf; minus_zero]) _) _); [left; reflexivity|]. intros [|[|j]] x k J1 J2; cbn [fst nth_error] in *; try discriminate.
        -- injection J1 as <-. injection J2 as <-. right. exists (s2z "a"). split; [apply L; reflexivity|vm_compute; reflexivity].
        -- injection J1 as <-. left. reflexivity.
        -- destruct j; discriminate.
      * destruct (p [2; 1]) eqn:PE; [|reflexivity]. exfalso.
        destruct (proj1 (P ([2; 1], [0; dbl_1; dbl_2_5; dbl_1; dbl_1]) (or_intror (or_intror (or_introl eq_refl)))) PE O (s2z "A") 2 eq_refl eq_refl) as [X|(t & T1 & T2)]; [discriminate|].
        apply L in T1. injection T1 as <-. vm_compute in T2. discriminate.
      * destruct (U ([1; 3], rc_values) (or_intror (or_introl eq_refl))) as (ts & E2 & N).
        -- constructor; [exists (s2z "a"); apply L; reflexivity|]. constructor; [|constructor]. exists (s2z "c"). apply L. reflexivity.
        -- change (free_keys [ren1; ren2] [s2z "A"; s2z ""] (fst ([1; 3], rc_values))) with [ren2 3] in E2. cbn [fst] in N.
           inversion N as [|? ? ? ? t1 ts1 N1 N']; subst. inversion N' as [|? ? ? ? t2 ts2 N2 N'']; subst. inversion N''; subst.
           destruct N1 as [[_ ->]|[X _]]; [|discriminate]. destruct N2 as [[X _]|[_ N2]]; [exfalso; apply X; reflexivity|]. apply L in N2. injection N2 as <-. exact E2.
Qed.

Print Assumptions C36_slices.
