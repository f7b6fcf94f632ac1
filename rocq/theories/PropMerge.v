(** * Properties of the tool gdxmerge: C55, C56 *)

From Coq Require Import String Permutation Sorted Reals Lra.
From Flocq Require Import Core BinarySingleNaN.
From Coq Require Import SpecFloat.
From Verif Require Import Base Prim Values Records LinkedData StrHash Strings IntMap AStream State FileImage ApiCore ApiFile ApiWrite ApiRead Api Vocab FloatAcr FloatCmp FileFlow DicInv Sessions PropMeta Cases Merge.
Open Scope Z_scope.
Open Scope list_scope.

(** ** Specification *)

Definition same_name (a b : msym) : Prop := upper (y_name a) = upper (y_name b).
(** Symbols that go together: same dimension and type (an alias is a set), variables and
    equations also of the same subtype. *)
Definition alike (a b : msym) : Prop :=
  y_dim a = y_dim b /\ typ_of a = typ_of b /\ (is_varequ (typ_of a) = true -> sub_of a = sub_of b).
Definition same_nameb (a b : msym) : bool := same_text true (y_name a) (y_name b).
Definition alikeb (a b : msym) : bool :=
  (y_dim a =? y_dim b) && (typ_of a =? typ_of b) && (if is_varequ (typ_of a) then sub_of a =? sub_of b else true).
Lemma same_nameb_spec : forall a b, same_nameb a b = true <-> same_name a b.
Proof. intros. apply same_text_spec. Qed.
Lemma alikeb_spec : forall a b, alikeb a b = true <-> alike a b.
Proof.
  intros a b. unfold alikeb, alike. rewrite !andb_true_iff, !Z.eqb_eq. destruct (is_varequ (typ_of a)); [rewrite Z.eqb_eq|]; intuition congruence.
Qed.

(** The symbols of the input files that take part, with their file, in the order of the
    files. *)
Definition sources (o : mopts) (files : list mfile) : list (mfile * msym) :=
  flat_map (fun h => List.map (pair h) (filter (fun y => (y_dim y <? 20) && wanted o (y_name y)) (h_syms h))) files.
(** The first symbol of each name. *)
Definition add_head (l : list msym) (s : mfile * msym) : list msym := if existsb (fun y => same_nameb y (snd s)) l then l else l ++ [snd s].
Definition heads (l : list (mfile * msym)) : list msym := fold_left add_head l [].
(** The records that belong together with those of [y], each with its file. *)
Definition part (y : msym) (s : mfile * msym) : list (mfile * mrec) :=
  if same_nameb y (snd s) && alikeb y (snd s) then List.map (pair (fst s)) (y_recs (snd s)) else [].
Definition records_for (l : list (mfile * msym)) (y : msym) : list (mfile * mrec) := flat_map (part y) l.
(** The explanatory text: the first that is not empty. *)
Definition text_part (y : msym) (s : mfile * msym) : list str :=
  if same_nameb y (snd s) && alikeb y (snd s) then match y_expl (snd s) with [] => [] | t => [t] end else [].
Definition text_for (l : list (mfile * msym)) (y : msym) : str := hd [] (flat_map (text_part y) l).

(** In the object [g] the number [k] stands for the label [s]. *)
Definition stands (z : zlib) (g : gst) (s : str) (k : Z) : Prop := exists t, label z g k t /\ upper t = upper (trim_right s).
(** The element of a set has the text [t]. *)
Definition with_text (typ : Z) (h : mfile) (r : mrec) (t : str) : Prop :=
  typ = dt_set /\ exists x rest n, m_vals r = x :: rest /\ feqb x d_zero = false /\ d_round x = Some n /\ h_text h n = Done t.
Definition without_text (typ : Z) (r : mrec) : Prop := typ = dt_set -> exists x rest, m_vals r = x :: rest /\ feqb x d_zero = true.
(** The calls that write a record, with their answers. *)
Inductive line (typ : Z) (h : mfile) (r : mrec) (k : list Z) : list (call * resp) -> Prop :=
| ln_text : forall t a b, with_text typ h r t -> t <> [] -> line typ h r k [(gdxAddSetText t, a); (gdxDataWriteRaw k [fofZ (hd 0 (r_ints a))], b)]
| ln_empty : forall b, with_text typ h r [] -> line typ h r k [(gdxDataWriteRaw k [0], b)]
| ln_plain : forall b, without_text typ r -> line typ h r k [(gdxDataWriteRaw k (firstn (data_size typ) (m_vals r)), b)].
(** A symbol of the output: the calls [lg] write exactly the records [recs], with indices
    that stand for the name of the file and the labels of the record, ordered by the indices. *)
Definition written_in (before : list Z -> list Z -> Prop) (z : zlib) (g : gst) (y : msym) (text : str) (recs : list (mfile * mrec)) (lg : list (call * resp)) : Prop :=
  exists a b sorted keys lines, Permutation recs sorted /\ Forall2 (fun hr k => Forall2 (stands z g) (h_id (fst hr) :: m_labels (snd hr)) k) sorted keys /\
    StronglySorted before keys /\ Forall2 (fun hk => line (typ_of y) (fst (fst hk)) (snd (fst hk)) (snd hk)) (combine sorted keys) lines /\
    lg = (gdxDataWriteRawStart (y_name y) text (y_dim y + 1) (typ_of y) (sub_of y), a) :: concat lines ++ [(gdxDataWriteDone, b)].
Definition symbol_written := written_in lex_le.
(** The set of the files. *)
Inductive names_written : list mfile -> list (call * resp) -> Prop :=
| nw_nil : names_written [] []
| nw_cons : forall h l lg a b, names_written l lg -> names_written (h :: l) ((gdxAddSetText (h_info h), a) :: (gdxDataWriteStr [h_id h] [fofZ (hd 0 (r_ints a))], b) :: lg).
Definition is_registration (c : call) : Prop := match c with gdxUELRegisterStrStart | gdxUELRegisterStr _ | gdxUELRegisterDone => True | _ => False end.
Definition is_search (c : call) : Prop := match c with gdxFindSymbol _ => True | _ => False end.

(** What reading delivers: as many labels as dimensions, and labels before the first changed
    dimension are those of the record before ([prev]: none). *)
Fixpoint recs_ok (dim : Z) (prev : option (list str)) (l : list mrec) : Prop :=
  match l with
  | [] => True
  | r :: l' => zlen (m_labels r) = dim /\ (0 < dim -> 1 <= m_af r <= dim + 1 /\
                 match prev with Some p => firstn (Z.to_nat (m_af r - 1)) (m_labels r) = firstn (Z.to_nat (m_af r - 1)) p | None => m_af r = 1 end) /\
               recs_ok dim (Some (m_labels r)) l'
  end.
Definition sym_ok (y : msym) : Prop := 0 <= y_dim y /\ recs_ok (y_dim y) None (y_recs y) /\ 0 <= y_count y.
Definition file_ok (h : mfile) : Prop := Forall sym_ok (h_syms h).
(** The total number of records, counted twice to cover the announced numbers, fits into an int. *)
Definition total (files : list mfile) : Z := fold_right (fun s n => zlen (y_recs (snd s)) + n) 0 (sources no_mopts files).
Definition few (files : list mfile) : Prop := forall h y, In h files -> In y (h_syms h) -> y_count y + total files <= 2^31 - 1.
(** Spellings of a name do not matter for the options ID and EXCLUDE. *)
Definition consistent (o : mopts) (files : list mfile) : Prop :=
  forall h y h' y', In h files -> In y (h_syms h) -> In h' files -> In y' (h_syms h') -> same_name y y' -> wanted o (y_name y) = wanted o (y_name y').

(** ** Small numbers as doubles *)

Local Instance prec64_gt_0 : Prec_gt_0 prec64 := eq_refl.
Local Instance prec64_lt_emax : Prec_lt_emax prec64 emax64 := eq_refl.

Lemma fofZ_exact : forall n, 1 <= n < 2^31 -> num (fofZ n) (IZR n).
Proof.
  intros n N. destruct n as [|p|p]; [lia| |lia].
  exists (BinarySingleNaN.binary_normalize prec64 emax64 _ _ mode_NE (Zpos p) 0 false).
  unfold fofZ. rewrite bn_equiv, of_to_B. split; [reflexivity|].
  assert (C := binary_normalize_correct prec64 emax64 _ _ mode_NE (Zpos p) 0 false). cbv zeta in C.
  change (round_mode mode_NE) with ZnearestE in C.
  assert (FR : F2R (Float radix2 (Z.pos p) 0) = IZR (Z.pos p)).
  { unfold F2R. cbn [Fnum Fexp bpow]. ring. }
  assert (RG : rnd64 (F2R (Float radix2 (Z.pos p) 0)) = IZR (Z.pos p)).
  { rewrite FR. apply round_generic; [apply valid_rnd_N|].
    apply generic_format_FLT. exists (Float radix2 (Z.pos p) 0).
    - symmetry. exact FR.
    - unfold prec64. cbn [Fnum Z.abs]. change (radix2 ^ 53) with (2^53). cbn. lia.
    - cbn. unfold SpecFloat.emin, prec64, emax64. lia. }
  rewrite RG in C. rewrite Rlt_bool_true in C.
  - destruct C as (C1 & C2 & _). auto.
  - rewrite Rabs_pos_eq by (apply IZR_le; lia).
    change (bpow radix2 emax64) with (bpow radix2 (31 + 993)). rewrite bpow_plus.
    assert (IZR (Z.pos p) < bpow radix2 31)%R.
    { rewrite <- (IZR_Zpower radix2) by lia. apply IZR_lt. cbn. lia. }
    assert (1 <= bpow radix2 993)%R by (change 1%R with (bpow radix2 0); apply bpow_le; lia).
    assert (0 < bpow radix2 31)%R by apply bpow_gt_0. nra.
Qed.
Lemma fofZ_back : forall n, 1 <= n < 2^31 -> d_round (fofZ n) = Some n /\ feqb (fofZ n) d_zero = false.
Proof.
  intros n N. destruct (fofZ_exact n N) as (q & E & F & R).
  assert (N1 : (1 <= IZR n)%R) by (apply IZR_le; lia). assert (N2 : (IZR n <= 2147483648)%R) by (apply IZR_le; lia). pose proof bpow_m53 as M53.
  split.
  2:{ unfold feqb. rewrite E. change (of_bits d_zero) with (B2SF (B754_zero false : bfloat)). change (Beqb q (B754_zero false) = false).
      rewrite Beqb_correct by (reflexivity || assumption). rewrite R. cbn [B2R]. apply Req_bool_false. lra. }
  unfold d_round. set (uq := fofZ n) in *. clearbody uq.
  assert (LE : fleb d_zero uq = true).
  { unfold fleb. rewrite E. change (of_bits d_zero) with (B2SF (B754_zero false : bfloat)).
    change (Bleb (B754_zero false) q = true). rewrite Bleb_correct by (reflexivity || assumption).
    apply Rle_bool_true. cbn [B2R]. rewrite R. lra. }
  rewrite LE.
  assert (Cs := Bplus_correct prec64 emax64 _ _ mode_NE q B_half F eq_refl).
  change (round_mode mode_NE) with ZnearestE in Cs. rewrite R, B_half_R in Cs.
  destruct (rnd_rel (IZR n + 1/2)) as (d3 & D3 & R3).
  { eapply Rle_trans with (1/2)%R; [|lra]. apply bpow_half. }
  apply Rabs_le_inv in D3. rewrite R3 in Cs.
  assert (SB : (IZR n + 1/4 <= (IZR n + 1/2) * (1 + d3) <= IZR n + 3/4)%R).
  { assert (- (1/1000000000000000) <= d3 <= 1/1000000000000000)%R by lra.
    assert (- (1/100000) <= (IZR n + 1/2) * d3 <= 1/100000)%R by nra. lra. }
  rewrite Rlt_bool_true in Cs.
  2:{ rewrite Rabs_pos_eq by lra. change (bpow radix2 emax64) with (bpow radix2 (32 + 992)). rewrite bpow_plus.
      assert (1 <= bpow radix2 992)%R by (change 1%R with (bpow radix2 0); apply bpow_le; lia).
      assert (bpow radix2 32 = IZR (2^32)) as -> by (symmetry; apply (IZR_Zpower radix2); lia).
      assert (IZR (2^32) >= 4000000000)%R by (apply Rle_ge; apply IZR_le; lia). nra. }
  destruct Cs as (Cs1 & Cs2 & _).
  rewrite (f_trunc_R (fadd uq d_half) (Bplus mode_NE q B_half)) with (n := n).
  - unfold to_int32. f_equal. rewrite signed_mod by lia. reflexivity.
  - unfold fadd. rewrite E. change (of_bits d_half) with (B2SF B_half). rewrite SFadd_B, of_to_B. reflexivity.
  - assumption.
  - lia.
  - lia.
  - rewrite Cs1, plus_IZR. lra.
Qed.

(** ** Registering labels *)

Local Ltac bindinv H := lazymatch type of H with obind ?m _ = Done _ => let x := fresh "x" in let E := fresh "E" in destruct m as [x|] eqn:E; [|discriminate H]; cbn [obind] in H end.

(** Labels are numbered the same way by the file and by the user. *)
Definition ident (d : dic) : Prop :=
  (forall i e, znth (d_uels d) i = Some e -> snd e = i + 1) /\ im_high (d_usr d) = zlen (d_uels d) /\ im_inv (d_usr d).
Definition grown (d d' : dic) : Prop := forall i e, znth (d_uels d) i = Some e -> znth (d_uels d') i = Some e.
Definition at_label (d : dic) (s : str) (k : Z) : Prop := exists e, znth (d_uels d) (k - 1) = Some e /\ upper (fst e) = upper (trim_right s).
Lemma grown_refl : forall d, grown d d. Proof. intros d i e H. exact H. Qed.
Lemma grown_trans : forall a b c, grown a b -> grown b c -> grown a c. Proof. intros a b c X Y i e H. auto. Qed.
Lemma at_label_grown : forall d d' s k, grown d d' -> at_label d s k -> at_label d' s k.
Proof. intros d d' s k G (e & A & B). exists e. auto. Qed.

Lemma add_usr_ident : forall s d n d', ident d -> add_usr_new s d = Done (n, d') ->
  ident d' /\ grown d d' /\ exists e, znth (d_uels d') (n - 1) = Some e /\ upper (fst e) = upper s.
Proof.
  intros s d n d' (I1 & I2 & I3) H. unfold add_usr_new, uel_add in H. destruct (sl_add true (d_uels d) s (-1)) as [l k] eqn:SA.
  unfold new_usr_uel, user_map in H. cbn [d_uels set_d_uels] in H. rewrite Z.add_simpl_r in H.
  destruct (sl_add_cases _ _ _ _ _ _ SA) as [[-> F]|(-> & F & ->)].
  - destruct (sl_find_Some _ _ _ _ F) as (e & E1 & E2). rewrite E1 in H. cbn [obind] in H. pose proof (I1 _ _ E1) as UE. pose proof (znth_Some _ _ _ E1) as R.
    destruct (Z.ltb_spec (snd e) 0); [lia|]. injection H as <- <-. cbn [d_uels set_d_uels set_d_status d_usr].
    split; [split; [exact I1|split; [exact I2|exact I3]]|]. split; [intros i x X; exact X|]. exists e. rewrite UE, Z.add_simpl_r. split; [exact E1|]. apply same_text_spec in E2. exact E2.
  - pose proof (zlen_nonneg (d_uels d)) as NN.
    assert (Z0 : znth (d_uels d ++ [(s, -1)]) (zlen (d_uels d)) = Some (s, -1)) by (apply znth_snoc; auto).
    rewrite Z0 in H. cbn [obind snd] in H. change (-1 <? 0) with true in H. cbv iota in H. cbn [d_usr set_d_uels] in H. rewrite I2 in H.
    destruct (int_okb (zlen (d_uels d) + 1)) eqn:IO; [|discriminate H]. unfold set_user_map in H. cbn [d_uels set_d_uels] in H. rewrite Z.add_simpl_r, Z0 in H. cbn [obind fst d_usr set_d_uels] in H.
    assert (RG : 0 <= zlen (d_uels d) + 1 <= INT_MAX).
    { unfold int_okb in IO. apply andb_true_iff in IO. destruct IO as [_ IO]. apply Z.leb_le in IO. lia. }
    destruct (im_set_spec (d_usr d) (zlen (d_uels d) + 1) (zlen (d_uels d) + 1) I3 RG) as (m & M1 & M2 & _ & M4).
    rewrite M1 in H. cbn [obind] in H. injection H as <- <-. cbn [d_uels set_d_uels set_d_usr set_d_status d_usr].
    assert (LN : zlen (d_uels d ++ [(s, -1)]) = zlen (d_uels d) + 1) by (rewrite zlen_app; reflexivity).
    assert (Z1 : znth (zset (zlen (d_uels d)) (s, zlen (d_uels d) + 1) (d_uels d ++ [(s, -1)])) (zlen (d_uels d)) = Some (s, zlen (d_uels d) + 1)) by (apply znth_zset_eq; lia).
    unfold ident. cbn [d_uels set_d_uels set_d_usr set_d_status d_usr].
    split; [split; [|split]|].
    + intros i e X. destruct (Z.eq_dec (zlen (d_uels d)) i) as [<-|N]; [rewrite Z1 in X; injection X as <-; reflexivity|].
      rewrite znth_zset_neq in X by exact N. apply znth_snoc in X. destruct X as [X|[X _]]; [apply I1; exact X|lia].
    + rewrite M4, zset_length, LN, I2. lia.
    + exact M2.
    + split; [|exists (s, zlen (d_uels d) + 1); rewrite Z.add_simpl_r; split; [exact Z1|reflexivity]].
      intros i e X. pose proof (znth_Some _ _ _ X). cbn [d_uels set_d_uels set_d_usr set_d_status]. rewrite znth_zset_neq by lia. apply znth_snoc. auto.
Qed.

(** The calls [lg] with their answers lead from [a] to [b]. *)
Definition did (z : zlib) (a : gst) (lg : list (call * resp)) (b : gst) : Prop := run z (List.map fst lg) a = Done (List.map snd lg, b).
Lemma did_nil : forall z a, did z a [] a. Proof. reflexivity. Qed.
Lemma did_app : forall z a l b m c, did z a l b -> did z b m c -> did z a (l ++ m) c.
Proof. intros z a l b m c A B. unfold did. rewrite !map_app. eapply run_app; eassumption. Qed.
Lemma did_one : forall z c r a b, exec z c a = Done (r, b) -> did z a [(c, r)] b.
Proof. intros z c r a b H. unfold did. cbn [List.map fst snd run]. rewrite H. reflexivity. Qed.
Lemma ask_inv : forall z c q r q', ask z c q = Done (r, q') -> exec z c (q_g q) = Done (r, q_g q') /\ q' = mkMst (q_g q') (q_log q ++ [(c, r)]) (q_syms q) (q_pool q) (q_idx q) (q_rows q).
Proof. intros z c q r q' H. unfold ask in H. bindinv H. destruct x as [x g]. injection H as <- <-. split; reflexivity. Qed.
Lemma ask__inv : forall z c q q', ask_ z c q = Done q' -> exists r, exec z c (q_g q) = Done (r, q_g q') /\ q' = mkMst (q_g q') (q_log q ++ [(c, r)]) (q_syms q) (q_pool q) (q_idx q) (q_rows q).
Proof. intros z c q q' H. unfold ask_ in H. bindinv H. destruct x as [r x]. injection H as <-. exists r. apply ask_inv. exact E. Qed.

(** From [q] to [q'] only labels are registered. *)
Definition regd (z : zlib) (q q' : mst) : Prop :=
  exists lg, q_log q' = q_log q ++ lg /\ Forall (fun x => is_registration (fst x)) lg /\ did z (q_g q) lg (q_g q') /\
    ident (g_dic (q_g q')) /\ grown (g_dic (q_g q)) (g_dic (q_g q')).
Lemma regd_refl : forall z q q', q_log q' = q_log q -> q_g q' = q_g q -> ident (g_dic (q_g q)) -> regd z q q'.
Proof. intros z q q' A B I. exists []. rewrite A, B, app_nil_r. split; [reflexivity|]. split; [constructor|]. split; [apply did_nil|]. split; [exact I|apply grown_refl]. Qed.
Lemma regd_trans : forall z a b c, regd z a b -> regd z b c -> regd z a c.
Proof.
  intros z a b c (l1 & A1 & B1 & C1 & D1 & E1) (l2 & A2 & B2 & C2 & D2 & E2). exists (l1 ++ l2). rewrite A2, A1, app_assoc.
  split; [reflexivity|]. split; [apply Forall_app; auto|]. split; [eapply did_app; eassumption|]. split; [exact D2|]. eapply grown_trans; eassumption.
Qed.
Lemma regd_to : forall z q q' q'', regd z q q' -> q_log q'' = q_log q' -> q_g q'' = q_g q' -> regd z q q''.
Proof. intros z q q' q'' (lg & A) B C. exists lg. rewrite B, C. exact A. Qed.
Lemma regd_from : forall z q q' q'', regd z q' q'' -> q_log q = q_log q' -> q_g q = q_g q' -> regd z q q''.
Proof. intros z q q' q'' (lg & A) B C. exists lg. rewrite B, C. exact A. Qed.
Lemma ask_regd : forall z c q q', is_registration c -> (forall r st', exec z c (q_g q) = Done (r, st') -> g_dic st' = g_dic (q_g q)) ->
  ident (g_dic (q_g q)) -> ask_ z c q = Done q' -> regd z q q' /\ q_syms q' = q_syms q /\ q_pool q' = q_pool q.
Proof.
  intros z c q q' R S0 I H. apply ask__inv in H. destruct H as (r & X & ->). cbn [q_g q_log q_syms q_pool]. split; [|split; reflexivity].
  exists [(c, r)]. cbn [q_log q_g]. rewrite (S0 _ _ X). split; [reflexivity|]. split; [constructor; [exact R|constructor]|]. split; [apply did_one; exact X|]. split; [exact I|apply grown_refl].
Qed.
Lemma start_dic : forall z st r st', exec z gdxUELRegisterStrStart st = Done (r, st') -> g_dic st' = g_dic st.
Proof. intros z st r st' H. cbn [exec] in H. unfold register_str_start, checked, refuse, okay in H. destruct (mode_in _ _); injection H as _ <-; reflexivity. Qed.
Lemma done_dic : forall z st r st', exec z gdxUELRegisterDone st = Done (r, st') -> g_dic st' = g_dic st.
Proof. intros z st r st' H. cbn [exec] in H. unfold register_done, checked, refuse, okay in H. destruct (mode_in _ _); injection H as _ <-; reflexivity. Qed.

Lemma add_uel_regd : forall z s q v q', ident (g_dic (q_g q)) -> add_uel z s q = Done (v, q') ->
  regd z q q' /\ at_label (g_dic (q_g q')) s v /\ q_syms q' = q_syms q /\ q_pool q' = q_pool q /\ q_idx q' = q_idx q.
Proof.
  intros z s q v q' I H. unfold add_uel in H. bindinv H. destruct x as [r x]. destruct (r_code r =? 0) eqn:RC; [discriminate H|]. injection H as <- <-.
  apply ask_inv in E. destruct E as (X & ->). cbn [q_g q_log q_syms q_pool q_idx]. set (g := q_g x) in *. clearbody g.
  pose proof (did_one _ _ _ _ _ X) as DO. cbn [exec] in X. unfold register_str, checked in X.
  destruct (mode_in (g_mode (q_g q)) [f_str_elem]) eqn:M.
  2:{ unfold refuse in X. injection X as <- _. discriminate RC. }
  unfold trim_store in X. destruct (_ || _); [|discriminate X]. cbn [obind] in X.
  destruct (good_uel (trim_right s)); [|unfold fail_with in X; injection X as <- _; discriminate RC].
  bindinv X. destruct x0 as [n d]. injection X as <- <-.
  destruct (add_usr_ident _ _ _ _ I E) as (I2 & G & e & L1 & L2).
  split; [|split; [|auto]].
  - eexists. cbn [q_log q_g g_dic set_g_dic]. split; [reflexivity|]. split; [constructor; [exact Logic.I|constructor]|]. split; [exact DO|]. split; [exact I2|exact G].
  - exists e. cbn [r_ints ret_i hd g_dic set_g_dic]. auto.
Qed.

(** ** Indices of a record *)

Lemma set_nth_split : forall {A} (a : list A) x v b, set_nth (length a) v (a ++ x :: b) = a ++ v :: b.
Proof. induction a as [|y a IH]; intros x v b; cbn [length app set_nth]; [reflexivity|]. rewrite IH. reflexivity. Qed.
Lemma add_from_regd : forall z ls a mid b q q', ident (g_dic (q_g q)) -> q_idx q = a ++ mid ++ b -> length mid = length ls -> (1 <= length a)%nat ->
  add_from z (length a - 1) ls q = Done q' ->
  regd z q q' /\ q_syms q' = q_syms q /\ q_pool q' = q_pool q /\ exists vs, q_idx q' = a ++ vs ++ b /\ Forall2 (at_label (g_dic (q_g q'))) ls vs.
Proof.
  induction ls as [|l ls IH]; intros a mid b q q' I Q LN LA H.
  - injection H as <-. destruct mid; [|discriminate LN]. split; [apply regd_refl; auto|]. split; [reflexivity|]. split; [reflexivity|]. exists []. split; [exact Q|constructor].
  - destruct mid as [|m mid]; [discriminate LN|]. cbn [add_from] in H. bindinv H. destruct x as [v x].
    destruct (add_uel_regd _ _ _ _ _ I E) as (R & L & S1 & S2 & S3). pose proof R as (lg & _ & _ & _ & I2 & _).
    assert (X : set_nth (S (length a - 1)) v (q_idx x) = (a ++ [v]) ++ mid ++ b).
    { replace (S (length a - 1)) with (length a) by lia. rewrite S3, Q. cbn [app]. rewrite set_nth_split. rewrite <- app_assoc. reflexivity. }
    assert (L1 : (length (a ++ [v]) - 1 = S (length a - 1))%nat) by (rewrite app_length; cbn [length]; lia).
    destruct (IH (a ++ [v]) mid b (set_q_idx (set_nth (S (length a - 1)) v (q_idx x)) x) q') as (R2 & T1 & T2 & vs & V1 & V2).
    + exact I2.
    + exact X.
    + cbn [length] in LN. lia.
    + rewrite app_length. cbn [length]. lia.
    + rewrite L1. exact H.
    + split; [eapply regd_trans; [exact R|]; eapply regd_from; [exact R2|reflexivity|reflexivity]|].
      split; [rewrite T1; exact S1|]. split; [rewrite T2; exact S2|]. exists (v :: vs). rewrite V1, <- app_assoc. split; [reflexivity|].
      constructor; [|exact V2]. eapply at_label_grown; [|exact L]. destruct R2 as (_ & _ & _ & _ & _ & G). exact G.
Qed.

(** ** Texts of elements *)

Definition pinv (p : list (str * unit)) : Prop := znth p 0 = Some ([], tt) /\ forall i, znth p i = Some ([], tt) -> i = 0.
Lemma znth_pre : forall {A} (l x : list A) i e, znth l i = Some e -> znth (l ++ x) i = Some e.
Proof. intros A l x i e H. rewrite znth_app_l; [exact H|]. apply znth_Some in H. lia. Qed.
Lemma pool_add : forall p t p' i, pinv p -> sl_add false p t tt = (p', i) ->
  pinv p' /\ (exists x, p' = p ++ x /\ zlen x <= 1) /\ znth p' i = Some (t, tt) /\ (i = 0 <-> t = []).
Proof.
  intros p t p' i (P0 & P1) H.
  assert (NF : sl_find false p t = None -> t <> []).
  { intros F ->. unfold sl_find in F. rewrite sl_find_from_None in F. specialize (F _ _ P0). discriminate F. }
  destruct (sl_add_cases _ _ _ _ _ _ H) as [[-> F]|(-> & F & ->)].
  - destruct (sl_find_Some _ _ _ _ F) as ([e []] & E1 & E2). apply same_text_spec in E2. cbn [fst norm] in E2. subst e.
    split; [split; assumption|]. split; [exists []; rewrite app_nil_r; split; [reflexivity|unfold zlen; cbn; lia]|]. split; [exact E1|]. split.
    + intros ->. rewrite P0 in E1. injection E1 as <-. reflexivity.
    + intros ->. apply P1. exact E1.
  - specialize (NF F). split; [split|].
    + apply znth_pre. exact P0.
    + intros j X. apply znth_snoc in X. destruct X as [X|[_ X]]; [apply P1; exact X|]. injection X as X. congruence.
    + split; [exists [(t, tt)]; split; [reflexivity|unfold zlen; cbn; lia]|]. split; [apply znth_snoc; auto|].
      split; [|congruence]. intros L. apply znth_Some in P0. lia.
Qed.

(** The stored values of a record. *)
Definition vals_for (p : list (str * unit)) (typ : Z) (h : mfile) (r : mrec) (v : list Z) : Prop :=
  (exists t i, with_text typ h r t /\ znth p i = Some (t, tt) /\ (i = 0 <-> t = []) /\ v = [fofZ i]) \/
  (without_text typ r /\ m_vals r <> [] /\ v = firstn (data_size typ) (m_vals r)).
Definition rec_for (d : dic) (p : list (str * unit)) (typ : Z) (hr : mfile * mrec) (kv : list Z * list Z) : Prop :=
  Forall2 (at_label d) (h_id (fst hr) :: m_labels (snd hr)) (fst kv) /\ vals_for p typ (fst hr) (snd hr) (snd kv).
Lemma vals_for_pre : forall p x typ h r v, vals_for p typ h r v -> vals_for (p ++ x) typ h r v.
Proof. intros p x typ h r v [(t & i & A & B & C)|H]; [left; exists t, i; split; [exact A|]; split; [apply znth_pre; exact B|exact C]|right; exact H]. Qed.
Lemma Forall2_imp : forall {A B} (P Q : A -> B -> Prop) l m, (forall a b, P a b -> Q a b) -> Forall2 P l m -> Forall2 Q l m.
Proof. intros A B P Q l m I H. induction H; constructor; auto. Qed.
Lemma rec_for_later : forall d d' p x typ hr kv, grown d d' -> rec_for d p typ hr kv -> rec_for d' (p ++ x) typ hr kv.
Proof.
  intros d d' p x typ hr kv G [A B]. split; [|apply vals_for_pre; exact B]. eapply Forall2_imp; [|exact A]. intros s k. apply at_label_grown. exact G.
Qed.
Lemma pool_text_ok : forall h typ r q vals q', pinv (q_pool q) -> pool_text h typ (m_vals r) q = Done (vals, q') ->
  exists x, q' = set_q_pool (q_pool q ++ x) q /\ zlen x <= 1 /\ pinv (q_pool q ++ x) /\ vals_for (q_pool q ++ x) typ h r (firstn (data_size typ) vals).
Proof.
  intros h typ r q vals q' P H. unfold pool_text in H. destruct (m_vals r) as [|x rest] eqn:MV; [discriminate H|].
  assert (NO : (typ =? dt_set) && negb (feqb x d_zero) = false -> without_text typ r).
  { intros C T. rewrite MV. exists x, rest. split; [reflexivity|]. apply Z.eqb_eq in T. rewrite T in C. cbn [andb] in C. destruct (feqb x d_zero); [reflexivity|discriminate C]. }
  destruct ((typ =? dt_set) && negb (feqb x d_zero)) eqn:C.
  - destruct (d_round x) as [n|] eqn:DR; [|discriminate H]. bindinv H. destruct (sl_add false (q_pool q) x0 tt) as [p i] eqn:SA. injection H as <- <-.
    destruct (pool_add _ _ _ _ P SA) as (P' & (y & -> & L) & Z1 & Z2). exists y. split; [reflexivity|]. split; [exact L|]. split; [exact P'|].
    apply andb_true_iff in C. destruct C as [C1 C2]. left. exists x0, i. apply Z.eqb_eq in C1. apply negb_true_iff in C2.
    split; [split; [exact C1|]; exists x, rest, n; auto|]. split; [exact Z1|]. split; [exact Z2|]. rewrite C1. reflexivity.
  - injection H as <- <-. exists []. rewrite app_nil_r. split; [destruct q; reflexivity|]. split; [unfold zlen; cbn; lia|]. split; [exact P|]. right.
    split; [apply NO; reflexivity|]. rewrite MV. split; [discriminate|reflexivity].
Qed.

(** ** The records of a symbol *)

Lemma zset_same : forall {A} (l : list A) i a, znth l i = Some a -> zset i a l = l.
Proof.
  intros A l i a H. unfold znth, zset in *. destruct (i <? 0); [reflexivity|]. revert H. generalize (Z.to_nat i) as n. induction l as [|x l IH]; intros [|n] H; cbn in *; try discriminate.
  - injection H as ->. reflexivity.
  - f_equal. auto.
Qed.
Lemma zset_zset : forall {A} (l : list A) i a b, zset i a (zset i b l) = zset i a l.
Proof.
  intros A l i a b. unfold zset. destruct (i <? 0); [reflexivity|]. generalize (Z.to_nat i) as n. induction l as [|x l IH]; intros [|n]; cbn; [reflexivity..|]. f_equal. apply IH.
Qed.
Lemma Forall2_firstn : forall {A B} (P : A -> B -> Prop) n l m, Forall2 P l m -> Forall2 P (firstn n l) (firstn n m).
Proof. intros A B P n l m H. revert n. induction H; intros [|n]; cbn; constructor; auto. Qed.

Lemma take_labels : forall z h dim r prev q v0 rest q', ident (g_dic (q_g q)) -> 0 <= dim < 20 -> length (q_idx q) = 20%nat ->
  q_idx q = v0 :: rest -> at_label (g_dic (q_g q)) (h_id h) v0 -> (match prev with Some p => Forall2 (at_label (g_dic (q_g q))) p (firstn (Z.to_nat dim) rest) | None => True end) ->
  zlen (m_labels r) = dim ->
  (0 < dim -> 1 <= m_af r <= dim + 1 /\ match prev with Some p => firstn (Z.to_nat (m_af r - 1)) (m_labels r) = firstn (Z.to_nat (m_af r - 1)) p | None => m_af r = 1 end) ->
  (if 0 <? dim then if m_af r <? 1 then UB else add_from z (Z.to_nat (m_af r - 1)) (skipn (Z.to_nat (m_af r - 1)) (m_labels r)) q else Done q) = Done q' ->
  regd z q q' /\ q_syms q' = q_syms q /\ q_pool q' = q_pool q /\ length (q_idx q') = 20%nat /\ exists rest', q_idx q' = v0 :: rest' /\
    Forall2 (at_label (g_dic (q_g q'))) (m_labels r) (firstn (Z.to_nat dim) rest').
Proof.
  intros z h dim r prev q v0 rest q' I D L20 Q H0 HP LD RO H. destruct (Z.ltb_spec 0 dim) as [DP|DP].
  2:{ injection H as <-. assert (dim = 0) by lia. subst dim. assert (N : m_labels r = []) by (apply length_zero_iff_nil; unfold zlen in *; lia).
      split; [apply regd_refl; auto|]. split; [reflexivity|]. split; [reflexivity|]. split; [exact L20|]. exists rest. split; [exact Q|]. rewrite N. change (Z.to_nat 0) with 0%nat. cbn [firstn]. constructor. }
  destruct (RO DP) as (AF & PV). destruct (Z.ltb_spec (m_af r) 1); [discriminate H|].
  set (A := Z.to_nat (m_af r - 1)) in *. set (DD := Z.to_nat dim) in *. assert (AD : (A <= DD < 20)%nat) by lia.
  assert (LR : length rest = 19%nat) by (rewrite Q in L20; cbn [length] in L20; lia).
  assert (LL : length (m_labels r) = DD) by (unfold zlen in LD; lia).
  assert (SP : q_idx q = (v0 :: firstn A rest) ++ firstn (DD - A) (skipn A rest) ++ skipn (DD - A) (skipn A rest)).
  { rewrite Q, firstn_skipn. cbn [app]. rewrite firstn_skipn. reflexivity. }
  assert (LA : length (v0 :: firstn A rest) = S A) by (cbn [length]; rewrite firstn_length; lia).
  assert (E1 : (A = length (v0 :: firstn A rest) - 1)%nat) by lia. rewrite E1 in H at 1.
  destruct (add_from_regd z (skipn A (m_labels r)) _ _ _ q q' I SP) as (R & S1 & S2 & vs & V1 & V2); [rewrite firstn_length, !skipn_length; lia|lia|exact H|].
  pose proof (Forall2_length _ _ _ V2) as LV. rewrite skipn_length in LV.
  split; [exact R|]. split; [exact S1|]. split; [exact S2|].
  split; [rewrite V1; cbn [app length]; rewrite !app_length, firstn_length, !skipn_length; lia|].
  exists (firstn A rest ++ vs ++ skipn (DD - A) (skipn A rest)). split; [exact V1|].
  rewrite app_assoc, firstn_app. replace (DD - length (firstn A rest ++ vs))%nat with 0%nat by (rewrite app_length, firstn_length; lia). cbn [firstn]. rewrite app_nil_r.
  rewrite firstn_all2 by (rewrite app_length, firstn_length; lia).
  rewrite <- (firstn_skipn A (m_labels r)) at 1. apply Forall2_app; [|exact V2].
  destruct prev as [p|].
  + rewrite PV. replace (firstn A rest) with (firstn A (firstn DD rest)) by (rewrite firstn_firstn; f_equal; lia). apply Forall2_firstn.
    eapply Forall2_imp; [|exact HP]. intros s k. apply at_label_grown. destruct R as (_ & _ & _ & _ & _ & G). exact G.
  + replace A with 0%nat by lia. cbn [firstn]. constructor.
Qed.

Lemma take_recs_ok : forall z h n dim typ l prev q q' v0 rest j l0, ident (g_dic (q_g q)) -> 0 <= dim < 20 -> length (q_idx q) = 20%nat ->
  q_idx q = v0 :: rest -> at_label (g_dic (q_g q)) (h_id h) v0 -> (match prev with Some p => Forall2 (at_label (g_dic (q_g q))) p (firstn (Z.to_nat dim) rest) | None => True end) ->
  recs_ok dim prev l -> znth (q_syms q) n = Some j -> j_data j = Some l0 -> j_dim j = dim + 1 -> j_typ j = typ -> pinv (q_pool q) ->
  take_recs z h n dim typ l q = Done q' ->
  regd z q q' /\ length (q_idx q') = 20%nat /\ exists x new, q_pool q' = q_pool q ++ x /\ zlen x <= zlen l /\ pinv (q_pool q') /\
    q_syms q' = zset n (set_j_data (Some (l0 ++ new)) j) (q_syms q) /\ Forall2 (rec_for (g_dic (q_g q')) (q_pool q') typ) (List.map (pair h) l) new.
Proof.
  induction l as [|r l IH]; intros prev q q' v0 rest j l0 I D L20 Q H0 HP RO ZJ JD JM JT PI H; cbn [take_recs] in H.
  - injection H as <-. split; [apply regd_refl; auto|]. split; [exact L20|]. exists [], []. rewrite !app_nil_r. split; [reflexivity|]. split; [unfold zlen; cbn; lia|].
    split; [exact PI|]. split; [|constructor]. rewrite <- JD. replace (set_j_data (j_data j) j) with j by (destruct j; reflexivity). symmetry. apply zset_same. exact ZJ.
  - destruct RO as (LD & RA & RO). bindinv H. rename x into q1.
    destruct (take_labels z h dim r prev q v0 rest q1 I D L20 Q H0 HP LD RA E) as (R1 & S1 & P1 & L1 & rest1 & Q1 & F1).
    bindinv H. destruct x as [vals q2]. rewrite <- P1 in PI. destruct (pool_text_ok _ _ _ _ _ _ PI E0) as (x1 & -> & X1 & PI1 & V1).
    bindinv H. rename x into q3. unfold add_record in E1. cbn [q_syms set_q_pool] in E1. rewrite S1, ZJ, JD in E1. injection E1 as <-.
    pose proof R1 as (_ & _ & _ & _ & I1 & G1).
    match type of H with take_recs _ _ _ _ _ _ ?s = _ => set (q3 := s) in * end.
    set (kv := (firstn (Z.to_nat (j_dim j)) (q_idx q1), firstn (data_size (j_typ j)) vals)) in *.
    assert (ZJ' : znth (q_syms q3) n = Some (set_j_data (Some (l0 ++ [kv])) j)).
    { unfold q3. cbn [q_syms set_q_syms]. apply znth_zset_eq. apply znth_Some in ZJ. exact ZJ. }
    assert (H0' : at_label (g_dic (q_g q3)) (h_id h) v0) by (eapply at_label_grown; [exact G1|exact H0]).
    destruct (IH (Some (m_labels r)) q3 q' v0 rest1 _ (l0 ++ [kv]) I1 D L1 Q1 H0' F1 RO ZJ' eq_refl JM JT PI1 H) as (R2 & L2 & x2 & new & P2 & X2 & PI2 & S2 & F2).
    change (q_pool q3) with (q_pool q1 ++ x1) in P2. rewrite P1 in P2.
    split; [eapply regd_trans; [exact R1|]; eapply regd_from; [exact R2|reflexivity|reflexivity]|]. split; [exact L2|].
    exists (x1 ++ x2), (kv :: new). rewrite app_assoc. split; [exact P2|]. split; [rewrite zlen_app, zlen_cons; lia|]. split; [exact PI2|]. split.
    + rewrite S2. unfold q3. cbn [q_syms set_q_syms set_q_pool]. rewrite zset_zset, <- app_assoc. reflexivity.
    + cbn [List.map]. constructor; [|exact F2]. rewrite P2. apply rec_for_later with (d := g_dic (q_g q1)).
      * destruct R2 as (_ & _ & _ & _ & _ & G2). exact G2.
      * split; [|cbn [fst snd kv]; rewrite JT, <- P1; exact V1]. cbn [fst snd kv]. rewrite Q1, JM. replace (Z.to_nat (dim + 1)) with (S (Z.to_nat dim)) by lia. cbn [firstn].
        constructor; [eapply at_label_grown; [exact G1|exact H0]|exact F1].
Qed.

(** ** The symbols *)

Definition sym_for (d : dic) (p : list (str * unit)) (l : list (mfile * msym)) (y : msym) (j : gsym) : Prop :=
  j_name j = y_name y /\ j_dim j = y_dim y + 1 /\ j_typ j = typ_of y /\ j_sub j = sub_of y /\ j_expl j = text_for l y /\ j_skip j = false /\
  exists recs, j_data j = Some recs /\ Forall2 (rec_for d p (typ_of y)) (records_for l y) recs.
Lemma sym_for_later : forall d d' p x l y j, grown d d' -> sym_for d p l y j -> sym_for d' (p ++ x) l y j.
Proof.
  intros d d' p x l y j G (A1 & A2 & A3 & A4 & A5 & A6 & recs & A7 & A8). repeat (split; [assumption|]). exists recs. split; [exact A7|].
  eapply Forall2_imp; [|exact A8]. intros hr kv. apply rec_for_later. exact G.
Qed.
Lemma records_snoc : forall l s y, records_for (l ++ [s]) y = records_for l y ++ part y s.
Proof. intros l s y. unfold records_for. rewrite flat_map_app. cbn [flat_map]. rewrite app_nil_r. reflexivity. Qed.
Lemma text_snoc : forall l s y, text_for (l ++ [s]) y = match text_for l y with [] => hd [] (text_part y s) | t => t end.
Proof.
  intros l s y. unfold text_for. rewrite flat_map_app. cbn [flat_map]. rewrite app_nil_r.
  assert (NE : Forall (fun t => t <> []) (flat_map (text_part y) l)).
  { apply Forall_forall. intros t T. apply in_flat_map in T. destruct T as (x & _ & T). unfold text_part in T. destruct (_ && _); [|destruct T].
    destruct (y_expl (snd x)); [destruct T|]. destruct T as [<-|[]]. discriminate. }
  destruct (flat_map (text_part y) l) as [|t ts]; [reflexivity|]. cbn [app hd]. inversion_clear NE. destruct t; [congruence|reflexivity].
Qed.
Lemma sym_for_other : forall d p l s y j, same_nameb y (snd s) && alikeb y (snd s) = false -> sym_for d p l y j -> sym_for d p (l ++ [s]) y j.
Proof.
  intros d p l s y j N (A1 & A2 & A3 & A4 & A5 & A6 & recs & A7 & A8). split; [exact A1|]. split; [exact A2|]. split; [exact A3|]. split; [exact A4|].
  split; [rewrite text_snoc; unfold text_part; rewrite N; cbn [hd]; rewrite A5; destruct (text_for l y); reflexivity|]. split; [exact A6|].
  exists recs. split; [exact A7|]. rewrite records_snoc. unfold part. rewrite N, app_nil_r. exact A8.
Qed.

Lemma heads_snoc : forall l s, heads (l ++ [s]) = add_head (heads l) s.
Proof. intros l s. unfold heads. rewrite fold_left_app. reflexivity. Qed.
Definition hname (y : msym) : str := upper (y_name y).
Lemma heads_distinct : forall l, NoDup (List.map hname (heads l)).
Proof.
  induction l as [|s l IH] using rev_ind; [constructor|]. rewrite heads_snoc. unfold add_head. destruct (existsb _ _) eqn:E; [exact IH|].
  rewrite map_app. cbn [List.map]. apply NoDup_Add with (a := hname (snd s)) (l := List.map hname (heads l)).
  - rewrite <- (app_nil_r (List.map hname (heads l))) at 1. apply Add_app.
  - split; [exact IH|]. intros C. apply in_map_iff in C. destruct C as (y & A & B). apply not_true_iff_false in E. apply E. apply existsb_exists. exists y. split; [exact B|].
    apply same_nameb_spec. exact A.
Qed.
Lemma heads_sources : forall l y, In y (heads l) -> exists s, In s l /\ snd s = y.
Proof.
  induction l as [|s l IH] using rev_ind; intros y H; [destruct H|]. rewrite heads_snoc in H. unfold add_head in H.
  destruct (existsb _ _); [|apply in_app_or in H; destruct H as [H|[<-|[]]]].
  - destruct (IH _ H) as (x & A & B). exists x. split; [apply in_or_app; auto|exact B].
  - destruct (IH _ H) as (x & A & B). exists x. split; [apply in_or_app; auto|exact B].
  - exists s. split; [apply in_or_app; right; left; reflexivity|reflexivity].
Qed.

(** Looking a name up among the symbols collected so far. *)
Lemma sym_index_spec : forall d p l hs js n i, Forall2 (sym_for d p l) hs js ->
  match sym_index js n i with
  | Some k => exists h1 y h2 j1 j j2, hs = h1 ++ y :: h2 /\ js = j1 ++ j :: j2 /\ length h1 = length j1 /\ k = i + zlen j1 /\ same_text true (y_name y) n = true /\ sym_for d p l y j /\
              Forall2 (sym_for d p l) h1 j1 /\ Forall2 (sym_for d p l) h2 j2
  | None => forall y, In y hs -> same_text true (y_name y) n = false
  end.
Proof.
  intros d p l hs js n i F. revert i. induction F as [|y j hs js A F IH]; intros i; cbn [sym_index]; [intros y []|].
  pose proof A as (NM & _). rewrite NM. destruct (same_text true (y_name y) n) eqn:S1.
  - exists [], y, hs, [], j, js. split; [reflexivity|]. split; [reflexivity|]. split; [reflexivity|]. split; [unfold zlen; cbn; lia|]. split; [exact S1|]. split; [exact A|]. split; [constructor|exact F].
  - specialize (IH (i + 1)). destruct (sym_index js n (i + 1)) as [k|].
    + destruct IH as (h1 & y' & h2 & j1 & j' & j2 & -> & -> & L & -> & S2 & S3 & F1 & F2). exists (y :: h1), y', h2, (j :: j1), j', j2.
      split; [reflexivity|]. split; [reflexivity|]. split; [cbn [length]; lia|]. split; [rewrite zlen_cons; lia|]. split; [exact S2|]. split; [exact S3|]. split; [constructor; assumption|exact F2].
    + intros y' [<-|I]; [exact S1|apply IH; exact I].
Qed.
Lemma znth_mid : forall {A} (a : list A) x b, znth (a ++ x :: b) (zlen a) = Some x.
Proof. intros A a x b. unfold znth, zlen. destruct (Z.ltb_spec (Z.of_nat (length a)) 0); [lia|]. rewrite Nat2Z.id. rewrite nth_error_app2 by lia. rewrite Nat.sub_diag. reflexivity. Qed.
Lemma zset_mid : forall {A} (a : list A) x v b, zset (zlen a) v (a ++ x :: b) = a ++ v :: b.
Proof. intros A a x v b. unfold zset, zlen. destruct (Z.ltb_spec (Z.of_nat (length a)) 0); [lia|]. rewrite Nat2Z.id. apply set_nth_split. Qed.

Definition count_of (l : list (mfile * msym)) : Z := fold_right (fun s n => zlen (y_recs (snd s)) + n) 0 l.
Lemma count_app : forall a b, count_of (a ++ b) = count_of a + count_of b.
Proof. unfold count_of. induction a as [|x a IH]; intros b; cbn [app fold_right]; [reflexivity|]. rewrite IH. lia. Qed.
Lemma count_nonneg : forall a, 0 <= count_of a.
Proof. unfold count_of. induction a as [|x a IH]; cbn [fold_right]; [lia|]. pose proof (zlen_nonneg (y_recs (snd x))). lia. Qed.
Lemma records_count : forall l y, zlen (records_for l y) <= count_of l.
Proof.
  intros l y. unfold records_for, count_of. induction l as [|x l IH]; cbn [flat_map fold_right]; [unfold zlen; cbn; lia|]. rewrite zlen_app.
  assert (zlen (part y x) <= zlen (y_recs (snd x))); [|lia]. unfold part. destruct (_ && _); [unfold zlen; rewrite map_length; lia|]. pose proof (zlen_nonneg (y_recs (snd x))). unfold zlen at 1. cbn. lia.
Qed.

(** What holds after the sources [l]. *)
Record collected (z : zlib) (q0 : mst) (l : list (mfile * msym)) (q : mst) : Prop := mkCol {
  c_regd : regd z q0 q;
  c_len : length (q_idx q) = 20%nat;
  c_pool : pinv (q_pool q);
  c_size : zlen (q_pool q) <= 1 + count_of l;
  c_syms : Forall2 (sym_for (g_dic (q_g q)) (q_pool q) l) (heads l) (q_syms q) }.

Lemma matches_alike : forall d p l y0 y j, sym_for d p l y0 j -> matches y j = alikeb y0 y.
Proof.
  intros d p l y0 y j (A1 & A2 & A3 & A4 & _). unfold matches, alikeb. rewrite A2, A3, A4.
  assert (X1 : (y_dim y + 1 =? y_dim y0 + 1) = (y_dim y0 =? y_dim y)) by (apply Bool.eq_true_iff_eq; rewrite !Z.eqb_eq; lia).
  rewrite X1. rewrite (Z.eqb_sym (typ_of y)). destruct (Z.eqb_spec (typ_of y0) (typ_of y)) as [->|]; [|rewrite !andb_false_r; reflexivity].
  destruct (is_varequ (typ_of y)); [|reflexivity]. rewrite (Z.eqb_sym (sub_of y)). reflexivity.
Qed.

Lemma take_found : forall z h y q q' q0 l j1 j j2 h1 y0 h2,
  regd z q0 q -> length (q_idx q) = 20%nat -> pinv (q_pool q) -> zlen (q_pool q) <= 1 + count_of l ->
  q_syms q = j1 ++ j :: j2 -> heads (l ++ [(h, y)]) = h1 ++ y0 :: h2 -> length h1 = length j1 ->
  Forall2 (sym_for (g_dic (q_g q)) (q_pool q) l) h1 j1 -> Forall2 (sym_for (g_dic (q_g q)) (q_pool q) l) h2 j2 -> sym_for (g_dic (q_g q)) (q_pool q) l y0 j ->
  same_nameb y0 y = true -> sym_ok y -> y_dim y < 20 -> y_count y + count_of l <= 2^31 - 1 ->
  match znth (q_syms q) (zlen j1) with
  | None => UB
  | Some j => match j_data j with
    | None => Done q
    | Some l =>
      if j_skip j then Done q
      else
        let j := set_j_size (j_size j + y_count y * j_dim j * rec_len (typ_of y)) j in
        let q := set_q_syms (zset (zlen j1) j (q_syms q)) q in
        if negb (zlen l + y_count y <=? 2^31 - 1) then
          Done (set_q_syms (zset (zlen j1) (set_j_data None (set_j_skip true j)) (q_syms q)) q)
        else if negb (matches y j) then Done q
        else
          let j := match j_expl j with [] => set_j_expl (y_expl y) j | _ => j end in
          let q := set_q_syms (zset (zlen j1) j (q_syms q)) q in
          do (v, q) <- add_uel z (h_id h) q ;;
          take_recs z h (zlen j1) (y_dim y) (typ_of y) (y_recs y) (set_q_idx (set_nth 0 v (q_idx q)) q)
    end
  end = Done q' -> collected z q0 (l ++ [(h, y)]) q'.
Proof.
  intros z h y q q' q0 l j1 j j2 h1 y0 h2 RG L20 PI PS QS HS LN F1 F2 SF SN (YD & RO & _) YL YC H.
  pose proof SF as (A1 & A2 & A3 & A4 & A5 & A6 & recs & A7 & A8).
  pose proof RG as (_ & _ & _ & _ & ID & _).
  assert (DI : NoDup (List.map hname (h1 ++ y0 :: h2))) by (rewrite <- HS; apply heads_distinct).
  assert (HN : hname y0 = hname y) by (apply same_nameb_spec; exact SN).
  assert (OTH : forall y', In y' h1 \/ In y' h2 -> same_nameb y' y = false).
  { intros y' I. apply not_true_iff_false. intros C. apply same_nameb_spec in C. change (hname y' = hname y) in C. rewrite <- HN in C.
    rewrite map_app in DI. cbn [List.map] in DI. apply NoDup_remove_2 in DI. apply DI. rewrite <- C. apply in_or_app. destruct I as [I|I]; [left|right]; apply in_map; exact I. }
  assert (UP : forall d' x hs js, grown (g_dic (q_g q)) d' -> (forall y', In y' hs -> In y' h1 \/ In y' h2) -> Forall2 (sym_for (g_dic (q_g q)) (q_pool q) l) hs js ->
    Forall2 (sym_for d' (q_pool q ++ x) (l ++ [(h, y)])) hs js).
  { intros d' x hs js G IN F. induction F as [|a b hs js X F IH]; constructor.
    - apply sym_for_later with (d := g_dic (q_g q)); [exact G|]. apply sym_for_other; [|exact X]. cbn [snd]. rewrite OTH; [reflexivity|]. apply IN. left. reflexivity.
    - apply IH. intros y' I. apply IN. right. exact I. }
  rewrite QS, znth_mid, A7, A6 in H. cbv zeta in H. rewrite !zset_mid in H.
  assert (LR : zlen recs <= count_of l).
  { pose proof (records_count l y0). pose proof (Forall2_length _ _ _ A8) as E. unfold zlen in *. lia. }
  destruct (Z.leb_spec (zlen recs + y_count y) (2^31 - 1)) as [OK|OK]; [cbn [negb] in H|lia].
  set (j' := set_j_size (j_size j + y_count y * j_dim j * rec_len (typ_of y)) j) in *.
  assert (SF' : sym_for (g_dic (q_g q)) (q_pool q) l y0 j') by exact SF.
  rewrite (matches_alike _ _ _ _ y j' SF') in H. destruct (alikeb y0 y) eqn:AL; cbn [negb] in H.
  2:{ injection H as <-. split.
      - eapply regd_to; [exact RG|reflexivity|reflexivity].
      - exact L20.
      - exact PI.
      - cbn [q_pool set_q_syms]. rewrite count_app. pose proof (count_nonneg [(h, y)]). lia.
      - cbn [q_g q_pool q_syms set_q_syms]. rewrite HS. rewrite <- (app_nil_r (q_pool q)). apply Forall2_app; [apply UP; auto; apply grown_refl|]. constructor; [|apply UP; auto; apply grown_refl].
        apply sym_for_later with (d := g_dic (q_g q)); [apply grown_refl|]. apply sym_for_other; [|exact SF']. cbn [snd]. rewrite AL, andb_false_r. reflexivity. }
  match type of H with context [zset (zlen j1) ?e _] => set (j2' := e) in H end. cbn [q_syms set_q_syms] in H. rewrite zset_mid in H.
  bindinv H. destruct x as [v q1].
  match type of E with add_uel _ _ ?s = _ => set (qa := s) in E end.
  destruct (add_uel_regd z (h_id h) qa v q1 ID E) as (R1 & L1 & S1 & P1 & X1). change (q_syms qa) with (j1 ++ j2' :: j2) in S1. change (q_pool qa) with (q_pool q) in P1. change (q_idx qa) with (q_idx q) in X1.
  pose proof R1 as (_ & _ & _ & _ & I1 & G1). change (g_dic (q_g qa)) with (g_dic (q_g q)) in G1.
  destruct (q_idx q) as [|v1 rest] eqn:QI; [discriminate L20|].
  assert (J1 : j_data j2' = Some recs /\ j_dim j2' = y_dim y + 1 /\ j_typ j2' = typ_of y /\ j_name j2' = y_name y0 /\ j_sub j2' = sub_of y0 /\ j_skip j2' = false /\ j_expl j2' = text_for (l ++ [(h, y)]) y0).
  { pose proof AL as AL'. apply alikeb_spec in AL'. destruct AL' as (AD & AT & _). rewrite text_snoc. unfold text_part. cbn [snd]. rewrite SN.
    rewrite AL. cbn [andb].
    unfold j2', j'. cbn [j_expl set_j_size]. rewrite A5. destruct (text_for l y0) eqn:TX; cbn [j_data j_dim j_typ j_name j_sub j_skip j_expl set_j_expl set_j_size]; rewrite ?A5, ?TX, <- ?AD, <- ?AT;
      repeat (split; [assumption|]); [destruct (y_expl y); reflexivity|reflexivity]. }
  destruct J1 as (J1 & J2 & J3 & J4 & J5 & J6 & J7).
  destruct (take_recs_ok z h (zlen j1) (y_dim y) (typ_of y) (y_recs y) None (set_q_idx (set_nth 0 v (q_idx q1)) q1) q' v rest j2' recs) as (R2 & LL & x & new & P2 & ZX & PI2 & S2 & F3).
  - exact I1.
  - split; [exact YD|exact YL].
  - cbn [q_idx set_q_idx]. rewrite set_nth_length, X1. exact L20.
  - cbn [q_idx set_q_idx]. rewrite X1. reflexivity.
  - exact L1.
  - exact Logic.I.
  - exact RO.
  - cbn [q_syms set_q_idx]. rewrite S1. apply znth_mid.
  - exact J1.
  - exact J2.
  - exact J3.
  - cbn [q_pool set_q_idx]. rewrite P1. exact PI.
  - exact H.
  - cbn [q_pool set_q_idx] in P2. rewrite P1 in P2. cbn [q_syms set_q_idx] in S2. rewrite S1, zset_mid in S2.
    assert (G2 : grown (g_dic (q_g q)) (g_dic (q_g q'))) by (destruct R2 as (_ & _ & _ & _ & _ & G2); eapply grown_trans; [exact G1|exact G2]).
    split.
    + eapply regd_trans; [exact RG|]. eapply regd_trans; [eapply regd_from; [exact R1|reflexivity|reflexivity]|]. eapply regd_from; [exact R2|reflexivity|reflexivity].
    + exact LL.
    + exact PI2.
    + rewrite P2, zlen_app, count_app. unfold count_of at 2. cbn [fold_right snd]. lia.
    + rewrite S2, HS, P2. apply Forall2_app; [apply UP; auto|]. constructor; [|apply UP; auto].
      split; [exact J4|]. split; [exact (eq_trans J2 (eq_sym (f_equal (fun v => v + 1) (proj1 (proj1 (alikeb_spec _ _) AL)))))|].
      split; [change (j_typ j2' = typ_of y0); rewrite J3; symmetry; apply (proj1 (alikeb_spec _ _) AL)|]. split; [exact J5|]. split; [exact J7|]. split; [exact J6|].
      exists (recs ++ new). split; [reflexivity|]. rewrite records_snoc. unfold part. cbn [fst snd]. rewrite SN, AL. cbn [andb].
      assert (TY : typ_of y0 = typ_of y) by apply (proj1 (alikeb_spec _ _) AL).
      apply Forall2_app; [eapply Forall2_imp; [|exact A8]; intros a b; apply rec_for_later; exact G2|]. rewrite TY, <- P2. exact F3.
Qed.

Lemma heads_cover : forall l s, In s l -> exists y, In y (heads l) /\ same_name y (snd s).
Proof.
  induction l as [|x l IH] using rev_ind; intros s H; [destruct H|]. rewrite heads_snoc. unfold add_head. apply in_app_or in H.
  destruct (existsb _ _) eqn:E; destruct H as [H|[<-|[]]].
  - exact (IH _ H).
  - apply existsb_exists in E. destruct E as (y & A & B). exists y. split; [exact A|]. apply same_nameb_spec. exact B.
  - destruct (IH _ H) as (y & A & B). exists y. split; [apply in_or_app; auto|exact B].
  - exists (snd x). split; [apply in_or_app; right; left; reflexivity|]. reflexivity.
Qed.
Lemma nothing_for : forall l y, (forall s, In s l -> same_nameb y (snd s) = false) -> records_for l y = [] /\ text_for l y = [].
Proof.
  intros l y H. unfold text_for. assert (X : records_for l y = [] /\ flat_map (text_part y) l = []); [|destruct X as [-> ->]; auto].
  unfold records_for. induction l as [|s l IH]; [auto|]. cbn [flat_map]. destruct IH as [I1 I2]; [intros x I; apply H; right; exact I|]. rewrite I1, I2.
  unfold part, text_part. rewrite (H s) by (left; reflexivity). auto.
Qed.

Definition taken (o : mopts) (h : mfile) (y : msym) : list (mfile * msym) := if (y_dim y <? 20) && wanted o (y_name y) then [(h, y)] else [].
Lemma take_symbol_ok : forall z o h y q q' q0 l, collected z q0 l q -> sym_ok y -> y_count y + count_of l <= 2^31 - 1 ->
  (forall s, In s l -> wanted o (y_name (snd s)) = true) -> (forall s, In s l -> same_name (snd s) y -> wanted o (y_name (snd s)) = wanted o (y_name y)) ->
  take_symbol z o p_all h y q = Done q' -> collected z q0 (l ++ taken o h y) q'.
Proof.
  intros z o h y q q' q0 l [RG L20 PI PS FS] OK YC W WC H. unfold take_symbol in H. unfold taken.
  destruct (y_dim y <? 20) eqn:YD; cbn [negb andb] in H |- *; [|injection H as <-; rewrite app_nil_r; split; assumption].
  apply Z.ltb_lt in YD. unfold find_or_add in H. pose proof (sym_index_spec _ _ _ _ _ (y_name y) 0 FS) as SI.
  destruct (sym_index (q_syms q) (y_name y) 0) as [n|].
  - destruct SI as (h1 & y0 & h2 & j1 & j & j2 & HS & QS & LN & -> & SN & SF & F1 & F2). rewrite Z.add_0_l in H.
    assert (IY : In y0 (heads l)) by (rewrite HS; apply in_or_app; right; left; reflexivity).
    destruct (heads_sources _ _ IY) as (s & SI & <-).
    assert (WY : wanted o (y_name y) = true) by (rewrite <- (WC s SI); [apply W; exact SI|apply same_nameb_spec; exact SN]). rewrite WY.
    apply (take_found z h y q q' q0 l j1 j j2 h1 (snd s) h2 RG L20 PI PS QS); auto.
    rewrite heads_snoc. unfold add_head. replace (existsb _ _) with true; [exact HS|]. symmetry. apply existsb_exists. exists (snd s). split; [exact IY|exact SN].
  - destruct (wanted o (y_name y)) eqn:WY; [|injection H as <-; rewrite app_nil_r; split; assumption].
    set (nj := mkGsym (y_name y) (y_dim y + 1) (typ_of y) (sub_of y) [] 0 false (Some [])) in H.
    assert (NS : forall s, In s l -> same_nameb y (snd s) = false).
    { intros s I. destruct (heads_cover _ _ I) as (y0 & A & B). apply not_true_iff_false. intros C. apply same_nameb_spec in C. specialize (SI y0 A).
      apply not_true_iff_false in SI. apply SI. apply same_nameb_spec. unfold same_name in *. congruence. }
    destruct (nothing_for _ _ NS) as (N1 & N2).
    apply (take_found z h y (set_q_syms (q_syms q ++ [nj]) q) q' q0 l (q_syms q) nj [] (heads l) y []); auto.
    + rewrite heads_snoc. unfold add_head. replace (existsb _ _) with false; [reflexivity|]. symmetry. apply not_true_iff_false. intros C. apply existsb_exists in C.
      destruct C as (y0 & A & B). specialize (SI y0 A). unfold same_nameb in B. cbn [snd] in B. congruence.
    + apply (Forall2_length _ _ _ FS).
    + split; [reflexivity|]. split; [reflexivity|]. split; [reflexivity|]. split; [reflexivity|]. split; [symmetry; exact N2|]. split; [reflexivity|].
      exists []. split; [reflexivity|]. rewrite N1. constructor.
    + apply same_nameb_spec. reflexivity.
Qed.

Lemma taken_in : forall o h y s, In s (taken o h y) -> s = (h, y) /\ wanted o (y_name y) = true.
Proof. intros o h y s H. unfold taken in H. destruct (_ && _) eqn:E; [|destruct H]. destruct H as [<-|[]]. apply andb_true_iff in E. tauto. Qed.
Definition sources_of (o : mopts) (h : mfile) (ys : list msym) : list (mfile * msym) := List.map (pair h) (filter (fun y => (y_dim y <? 20) && wanted o (y_name y)) ys).
Lemma sources_of_cons : forall o h y ys, sources_of o h (y :: ys) = taken o h y ++ sources_of o h ys.
Proof. intros o h y ys. unfold sources_of, taken. cbn [filter]. destruct (_ && _); reflexivity. Qed.

(** The hypotheses, for all symbols of all files. *)
Definition tame (o : mopts) (N : Z) (all : list (mfile * msym)) : Prop :=
  forall s, In s all -> sym_ok (snd s) /\ y_count (snd s) + N <= 2^31 - 1 /\ forall t, In t all -> same_name (snd s) (snd t) -> wanted o (y_name (snd s)) = wanted o (y_name (snd t)).
Lemma take_symbols_ok : forall z o h q0 N all ys q q' l, tame o N all -> (forall y, In y ys -> In (h, y) all) -> (forall s, In s l -> In s all /\ wanted o (y_name (snd s)) = true) ->
  count_of (l ++ sources_of o h ys) <= N -> collected z q0 l q -> take_symbols z o p_all h ys q = Done q' -> collected z q0 (l ++ sources_of o h ys) q'.
Proof.
  intros z o h q0 N all. induction ys as [|y ys IH]; intros q q' l T A L C H E; cbn [take_symbols] in E.
  - injection E as <-. unfold sources_of. cbn. rewrite app_nil_r. exact H.
  - bindinv E. rename x into q1. rewrite sources_of_cons, app_assoc in *. destruct (T (h, y)) as (T1 & T2 & T3); [apply A; left; reflexivity|]. cbn [snd] in *.
    eapply IH; [exact T|intros y' I; apply A; right; exact I| |exact C| |exact E].
    + intros s I. apply in_app_or in I. destruct I as [I|I]; [apply L; exact I|]. apply taken_in in I. destruct I as [-> W]. split; [apply A; left; reflexivity|exact W].
    + eapply take_symbol_ok; [exact H|exact T1| | | |exact E0].
      * rewrite !count_app in C. pose proof (count_nonneg (taken o h y)). pose proof (count_nonneg (sources_of o h ys)). lia.
      * intros s I. apply L. exact I.
      * intros s I S1. destruct (L s I) as [I1 _]. destruct (T s I1) as (_ & _ & X). apply (X (h, y)); [apply A; left; reflexivity|exact S1].
Qed.
Lemma regd_ident : forall z a b, regd z a b -> ident (g_dic (q_g b)).
Proof. intros z a b (_ & _ & _ & _ & I & _). exact I. Qed.
Lemma collected_after : forall z q0 l q q', collected z q0 l q -> regd z q q' -> q_syms q' = q_syms q -> q_pool q' = q_pool q -> length (q_idx q') = 20%nat -> collected z q0 l q'.
Proof.
  intros z q0 l q q' [A B C D E] R S1 P1 L. split; [eapply regd_trans; eassumption|exact L|rewrite P1; exact C|rewrite P1; exact D|].
  rewrite S1, P1. eapply Forall2_imp; [|exact E]. intros y j X. rewrite <- (app_nil_r (q_pool q)). apply sym_for_later with (d := g_dic (q_g q)); [|exact X]. destruct R as (_ & _ & _ & _ & _ & G). exact G.
Qed.
Lemma add_file_ok : forall z o h q0 N all q q' l, tame o N all -> (forall y, In y (h_syms h) -> In (h, y) all) -> (forall s, In s l -> In s all /\ wanted o (y_name (snd s)) = true) ->
  count_of (l ++ sources_of o h (h_syms h)) <= N -> collected z q0 l q -> add_file z o p_all h q = Done q' -> collected z q0 (l ++ sources_of o h (h_syms h)) q'.
Proof.
  intros z o h q0 N all q q' l T A L C H E. unfold add_file in E. bindinv E. bindinv E. rename x into q1, x0 into q2.
  pose proof (ask__inv _ _ _ _ E0) as (r1 & _ & Q1). pose proof (ask__inv _ _ _ _ E) as (r2 & _ & Q2).
  destruct (ask_regd z gdxUELRegisterStrStart (set_q_idx no_idx q) q1 Logic.I (fun r st' => start_dic z _ r st') (regd_ident _ _ _ (c_regd _ _ _ _ H)) E0) as (R1 & S1 & P1).
  assert (H1 : collected z q0 l q1).
  { eapply collected_after; [exact H|eapply regd_from; [exact R1|reflexivity|reflexivity]|exact S1|exact P1|]. rewrite Q1. reflexivity. }
  pose proof (take_symbols_ok z o h q0 N all _ _ _ _ T A L C H1 E1) as H2.
  destruct (ask_regd z gdxUELRegisterDone _ q' Logic.I (fun r st' => done_dic z _ r st') (regd_ident _ _ _ (c_regd _ _ _ _ H2)) E) as (R2 & S2 & P2).
  eapply collected_after; [exact H2|exact R2|exact S2|exact P2|]. rewrite Q2. exact (c_len _ _ _ _ H2).
Qed.
Lemma sources_cons : forall o h l, sources o (h :: l) = sources_of o h (h_syms h) ++ sources o l.
Proof. reflexivity. Qed.
Lemma add_files_ok : forall z o q0 N all hs q q' l, tame o N all -> (forall h y, In h hs -> In y (h_syms h) -> In (h, y) all) -> (forall s, In s l -> In s all /\ wanted o (y_name (snd s)) = true) ->
  count_of (l ++ sources o hs) <= N -> collected z q0 l q -> add_files z o p_all hs q = Done q' -> collected z q0 (l ++ sources o hs) q'.
Proof.
  intros z o q0 N all. induction hs as [|h hs IH]; intros q q' l T A L C H E; cbn [add_files] in E.
  - injection E as <-. cbn. rewrite app_nil_r. exact H.
  - bindinv E. rewrite sources_cons, app_assoc in *.
    eapply IH; [exact T|intros h' y I1 I2; apply A; [right; exact I1|exact I2]| |exact C| |exact E].
    + intros s I. apply in_app_or in I. destruct I as [I|I]; [apply L; exact I|]. unfold sources_of in I. apply in_map_iff in I. destruct I as (y & <- & I).
      apply filter_In in I. destruct I as [I1 I2]. apply andb_true_iff in I2. split; [apply A; [left; reflexivity|exact I1]|apply I2].
    + eapply add_file_ok; [exact T|intros y I; apply A; [left; reflexivity|exact I]|exact L| |exact H|exact E0].
      rewrite count_app in C. pose proof (count_nonneg (sources o hs)). lia.
Qed.

(** ** Sorting *)

Lemma key_before_spec : forall a b, length a = length b -> if key_before a b then lex_lt a b else lex_le b a.
Proof.
  unfold lex_le. induction a as [|x a IH]; intros [|y b] L; try discriminate L; cbn [key_before lex_lt]; [auto|]. injection L as L. specialize (IH _ L).
  destruct (Z.ltb_spec x y); [left; lia|]. destruct (Z.ltb_spec y x); [right; left; lia|]. assert (x = y) by lia. subst y.
  destruct (key_before a b); [right; auto|]. destruct IH as [->|IH]; [left; reflexivity|right; right; auto].
Qed.
Lemma insert_perm : forall r l, Permutation (r :: l) (insert_rec r l).
Proof.
  intros r l. induction l as [|s l IH]; cbn [insert_rec]; [apply Permutation_refl|]. destruct (key_before _ _); [apply Permutation_refl|].
  eapply perm_trans; [apply perm_swap|]. apply perm_skip. exact IH.
Qed.
Lemma insert_sorted : forall r l, Forall (fun s => length (fst s) = length (fst r)) l -> StronglySorted (fun a b => lex_le (fst a) (fst b)) l ->
  StronglySorted (fun a b => lex_le (fst a) (fst b)) (insert_rec r l).
Proof.
  intros r l. induction l as [|s l IH]; intros L O; cbn [insert_rec]; [repeat constructor|]. inversion_clear L as [|? ? L1 L2]. inversion_clear O as [|? ? O1 O2].
  pose proof (key_before_spec (fst r) (fst s) (eq_sym L1)) as K. destruct (key_before (fst r) (fst s)).
  - constructor; [constructor; assumption|]. constructor; [right; exact K|]. eapply Forall_impl; [|exact O2]. intros a X. eapply lex_le_trans; [right; exact K|exact X].
  - constructor; [apply IH; assumption|]. eapply Permutation_Forall; [apply insert_perm|]. constructor; assumption.
Qed.
Lemma sort_spec : forall n l, Forall (fun s => length (fst s) = n) l -> Permutation l (sort_recs l) /\ StronglySorted (fun a b => lex_le (fst a) (fst b)) (sort_recs l).
Proof.
  intros n l. unfold sort_recs. induction l as [|r l IH] using rev_ind; intros F; [split; constructor|]. apply Forall_app in F. destruct F as [F1 F2]. rewrite fold_left_app. cbn [fold_left].
  destruct (IH F1) as [I1 I2]. inversion_clear F2 as [|? ? R _]. split.
  - eapply perm_trans; [apply Permutation_app_comm|]. cbn [app]. eapply perm_trans; [apply perm_skip; exact I1|]. apply insert_perm.
  - apply insert_sorted; [|exact I2]. eapply Permutation_Forall; [exact I1|]. rewrite R. exact F1.
Qed.

(** ** Writing *)

Lemma stands_at : forall z g s k, at_label (g_dic g) s k -> stands z g s k.
Proof. intros z g s k (e & A & B). exists (fst e). split; [|exact B]. exists (snd e). exists g. cbn [exec]. unfold um_uel_get. rewrite A. destruct e; reflexivity. Qed.

Definition wrote_log (z : zlib) (q q' : mst) (lg : list (call * resp)) : Prop := q_log q' = q_log q ++ lg /\ did z (q_g q) lg (q_g q') /\ q_pool q' = q_pool q.
Lemma wrote_nil : forall z q, wrote_log z q q [].
Proof. intros z q. split; [rewrite app_nil_r; reflexivity|]. split; [apply did_nil|reflexivity]. Qed.
Lemma wrote_app : forall z a b c l m, wrote_log z a b l -> wrote_log z b c m -> wrote_log z a c (l ++ m).
Proof. intros z a b c l m (A1 & A2 & A3) (B1 & B2 & B3). split; [rewrite B1, A1, app_assoc; reflexivity|]. split; [eapply did_app; eassumption|congruence]. Qed.
Lemma wrote_ask : forall z c q r q', ask z c q = Done (r, q') -> wrote_log z q q' [(c, r)] /\ q_syms q' = q_syms q.
Proof. intros z c q r q' H. apply ask_inv in H. destruct H as (X & ->). split; [|reflexivity]. split; [reflexivity|]. split; [apply did_one; exact X|reflexivity]. Qed.
Lemma wrote_ask_ : forall z c q q', ask_ z c q = Done q' -> exists r, wrote_log z q q' [(c, r)] /\ q_syms q' = q_syms q.
Proof. intros z c q q' H. unfold ask_ in H. bindinv H. destruct x as [r x]. injection H as <-. exists r. apply wrote_ask. exact E. Qed.

Lemma write_recs_ok : forall z d p typ sorted kvs q q', Forall2 (rec_for d p typ) sorted kvs -> zlen p <= 2^31 -> q_pool q = p -> write_recs z typ kvs q = Done q' ->
  exists lines, wrote_log z q q' (concat lines) /\ q_syms q' = q_syms q /\ Forall2 (fun hk => line typ (fst (fst hk)) (snd (fst hk)) (snd hk)) (combine sorted (List.map fst kvs)) lines.
Proof.
  intros z d p typ sorted kvs q q' F PB. revert q q'. induction F as [|[h r] [k v] sorted kvs [_ V] F IH]; intros q q' PQ H; cbn [write_recs] in H.
  - injection H as <-. exists []. split; [apply wrote_nil|]. split; [reflexivity|constructor].
  - cbn [fst snd] in V. bindinv H. destruct x as [v' q1]. bindinv H. rename x into q2. destruct (wrote_ask_ _ _ _ _ E0) as (b & W2 & S2).
    assert (X : exists lg, wrote_log z q q1 lg /\ q_syms q1 = q_syms q /\ line typ h r k (lg ++ [(gdxDataWriteRaw k v', b)])).
    { destruct V as [(t & i & WT & ZI & I0 & ->)|(WO & NE & ->)].
      - pose proof WT as [TS _]. rewrite TS in E at 1. cbn [andb] in E. change (dt_set =? dt_set) with true in E. cbn [andb] in E.
        destruct (Z.eq_dec i 0) as [->|N0].
        + change (feqb (fofZ 0) d_zero) with true in E. cbn [negb] in E. injection E as <- <-. exists []. split; [apply wrote_nil|]. split; [reflexivity|]. change (fofZ 0) with 0. apply ln_empty.
          replace (@nil Z) with t by (apply I0; reflexivity). exact WT.
        + pose proof (znth_Some _ _ _ ZI) as RI. destruct (fofZ_back i ltac:(lia)) as (B1 & B2). rewrite B2, B1, PQ, ZI in E. cbn [negb] in E.
          bindinv E. destruct x as [a q3]. injection E as <- <-. destruct (wrote_ask _ _ _ _ _ E1) as (W1 & S1). exists [(gdxAddSetText t, a)]. split; [exact W1|]. split; [exact S1|]. cbn [app].
          apply ln_text; [exact WT|]. intros C. apply N0. apply I0. exact C.
      - destruct (m_vals r) as [|x rest] eqn:MV; [congruence|]. assert (DS : exists n, data_size typ = S n) by (unfold data_size; destruct (_ || _); eauto). destruct DS as (n & DS). rewrite DS in E at 1.
        cbn [firstn] in E.
        assert (CF : (typ =? dt_set) && negb (feqb x d_zero) = false).
        { destruct (Z.eqb_spec typ dt_set) as [T|T]; [|reflexivity]. destruct (WO T) as (x' & rest' & X1 & X2). rewrite MV in X1. injection X1 as <- <-. rewrite X2. reflexivity. }
        rewrite CF in E. injection E as <- <-. exists []. split; [apply wrote_nil|]. split; [reflexivity|]. cbn [app].
        rewrite <- MV. apply ln_plain. exact WO. }
    destruct X as (lg & W1 & S1 & LN). destruct (IH q2 q') as (lines & W3 & S3 & F3); [destruct W1 as (_ & _ & P1); destruct W2 as (_ & _ & P2); congruence|exact H|].
    exists ((lg ++ [(gdxDataWriteRaw k v', b)]) :: lines). cbn [concat]. split; [eapply wrote_app; [eapply wrote_app; eassumption|exact W3]|]. split; [congruence|].
    cbn [List.map combine fst]. constructor; [exact LN|exact F3].
Qed.

Lemma sorted_keys : forall (l : list (list Z * list Z)), StronglySorted (fun a b => lex_le (fst a) (fst b)) l -> StronglySorted lex_le (List.map fst l).
Proof.
  intros l H. induction H as [|a l H IH F]; cbn [List.map]; constructor; [exact IH|]. apply Forall_forall. intros k I. apply in_map_iff in I. destruct I as (x & <- & I). rewrite Forall_forall in F. apply F. exact I.
Qed.
Lemma recs_dim : forall l prev dim, recs_ok dim prev l -> Forall (fun r => zlen (m_labels r) = dim) l.
Proof. induction l as [|r l IH]; intros prev dim H; [constructor|]. destruct H as (A & _ & C). constructor; [exact A|eapply IH; exact C]. Qed.
Lemma Forall2_flip' : forall {A B} (P : A -> B -> Prop) l m, Forall2 P l m -> Forall2 (fun b a => P a b) m l.
Proof. intros A B P l m H. induction H; constructor; auto. Qed.

Lemma write_symbol_ok : forall z o g src y pre j post q q', sym_for (g_dic g) (q_pool q) src y j -> Forall (fun s => sym_ok (snd s)) src -> zlen (q_pool q) <= 2^31 ->
  q_syms q = pre ++ j :: post -> write_symbol z o p_all (zlen pre) q = Done q' ->
  exists lg j', wrote_log z q q' lg /\ q_syms q' = pre ++ j' :: post /\ symbol_written z g y (text_for src y) (records_for src y) lg.
Proof.
  intros z o g src y pre j post q q' SF OK PB QS H. destruct SF as (A1 & A2 & A3 & A4 & A5 & A6 & recs & A7 & A8). unfold write_symbol in H. rewrite QS, znth_mid, A7 in H.
  bindinv H. rename x into q1. bindinv H. rename x into q2. bindinv H. rename x into q3. injection H as <-.
  destruct (wrote_ask_ _ _ _ _ E) as (a & W1 & S1). destruct (wrote_ask_ _ _ _ _ E1) as (b & W3 & S3).
  assert (LK : Forall (fun s => length (fst s) = S (Z.to_nat (y_dim y))) recs).
  { apply Forall_forall. intros kv I. apply Forall2_flip' in A8. destruct (In_nth recs kv ([], []) I) as (n & N1 & N2).
    assert (X : forall (l : list (list Z * list Z)) m, Forall2 (fun b a => rec_for (g_dic g) (q_pool q) (typ_of y) a b) l m -> forall x, In x l -> exists a, In a m /\ rec_for (g_dic g) (q_pool q) (typ_of y) a x).
    { intros l m F. induction F as [|u v l m U F IH]; intros x [].
      - subst. exists v. split; [left; reflexivity|exact U].
      - destruct (IH x H) as (w & W & V). exists w. split; [right; exact W|exact V]. }
    destruct (X _ _ A8 kv I) as ([h r] & I2 & (K & _)). apply Forall2_length in K. rewrite <- K. cbn [fst snd length]. f_equal.
    unfold records_for in I2. apply in_flat_map in I2. destruct I2 as (s & I3 & I4). unfold part in I4. destruct (_ && _) eqn:AL; [|destruct I4]. apply in_map_iff in I4. destruct I4 as (r' & R1 & I4). injection R1 as _ ->.
    apply andb_true_iff in AL. destruct AL as [_ AL]. apply alikeb_spec in AL. destruct AL as (AD & _). rewrite Forall_forall in OK. destruct (OK s I3) as (_ & RO & _).
    pose proof (recs_dim _ _ _ RO) as RD. rewrite Forall_forall in RD. specialize (RD r I4). unfold zlen in RD. lia. }
  destruct (sort_spec _ _ LK) as (PM & SS).
  destruct (Permutation_Forall2 PM (Forall2_flip' _ _ _ A8)) as (sorted & PM2 & F2). apply Forall2_flip' in F2.
  assert (PQ : q_pool q1 = q_pool q) by apply W1. rewrite A3 in E0.
  destruct (write_recs_ok z _ _ _ _ _ q1 q2 F2 PB PQ E0) as (lines & W2 & S2 & FL).
  exists ((gdxDataWriteRawStart (j_name j) (j_expl j) (j_dim j) (j_typ j) (j_sub j), a) :: concat lines ++ [(gdxDataWriteDone, b)]).
  exists (set_j_data None j). split; [|split].
  - pose proof (wrote_app _ _ _ _ _ _ W1 (wrote_app _ _ _ _ _ _ W2 W3)) as W. exact W.
  - cbn [q_syms set_q_syms]. rewrite S3, S2, S1, QS, zset_mid. reflexivity.
  - exists a, b, sorted, (List.map fst (sort_recs recs)), lines. split; [exact PM2|]. split; [|split; [apply sorted_keys; exact SS|split; [exact FL|rewrite A1, A2, A3, A4, A5; reflexivity]]].
    clear - F2. induction F2 as [|hr kv l m X F IH]; cbn [List.map]; constructor; [|exact IH]. destruct X as (X & _). eapply Forall2_imp; [|exact X]. intros s k. apply stands_at.
Qed.

Lemma write_symbols_ok : forall z o g src hs js pre q q', Forall2 (sym_for (g_dic g) (q_pool q) src) hs js -> Forall (fun s => sym_ok (snd s)) src -> zlen (q_pool q) <= 2^31 ->
  q_syms q = pre ++ js -> write_symbols z o p_all (length js) (zlen pre) q = Done q' ->
  exists segs, wrote_log z q q' (concat segs) /\ Forall2 (fun y lg => symbol_written z g y (text_for src y) (records_for src y) lg) hs segs.
Proof.
  intros z o g src hs js pre q q' F OK. revert js pre q q' F. induction hs as [|y hs IH]; intros js pre q q' F PB QS H; inversion F as [|? j ? js' X F' E1 E2]; subst; cbn [length write_symbols] in H.
  - injection H as <-. exists []. split; [apply wrote_nil|constructor].
  - bindinv H. rename x into q1. destruct (write_symbol_ok _ _ _ _ _ _ _ _ _ _ X OK PB QS E) as (lg & j' & W & S1 & SW).
    assert (P1 : q_pool q1 = q_pool q) by apply W.
    destruct (IH js' (pre ++ [j']) q1 q') as (segs & W2 & F2).
    + rewrite P1. exact F'.
    + rewrite P1. exact PB.
    + rewrite S1, <- app_assoc. reflexivity.
    + rewrite zlen_app. exact H.
    + exists (lg :: segs). cbn [concat]. split; [eapply wrote_app; eassumption|]. constructor; [exact SW|exact F2].
Qed.

Lemma free_name_ok : forall z fuel n q nm q', free_name z fuel n q = Done (nm, q') -> exists lg, wrote_log z q q' lg /\ Forall (fun x => is_search (fst x)) lg /\
  exists k before r, nm = set_name k /\ n <= k /\ lg = before ++ [(gdxFindSymbol (set_name k), r)] /\ hd 0 (r_ints r) < 0.
Proof.
  intros z. induction fuel as [|fuel IH]; intros n q nm q' H; cbn [free_name] in H; [discriminate H|]. bindinv H. destruct x as [r q1]. destruct (wrote_ask _ _ _ _ _ E) as (W & _).
  destruct (Z.ltb_spec (hd 0 (r_ints r)) 0) as [NF|_].
  - injection H as <- <-. exists [(gdxFindSymbol (set_name n), r)]. split; [exact W|]. split; [repeat constructor|]. exists n, [], r. split; [reflexivity|]. split; [lia|]. split; [reflexivity|exact NF].
  - destruct (IH _ _ _ _ H) as (lg & W2 & F & k & before & r' & K1 & K2 & K3 & K4). exists ([(gdxFindSymbol (set_name n), r)] ++ lg). split; [eapply wrote_app; eassumption|]. split; [constructor; [exact Logic.I|exact F]|]. exists k, ((gdxFindSymbol (set_name n), r) :: before), r'. split; [exact K1|]. split; [lia|]. split; [rewrite K3; reflexivity|exact K4].
Qed.
Lemma write_names_ok : forall z l q q', write_names z l q = Done q' -> exists lg, wrote_log z q q' lg /\ names_written l lg.
Proof.
  intros z. induction l as [|h l IH]; intros q q' H; cbn [write_names] in H; [injection H as <-; exists []; split; [apply wrote_nil|constructor]|].
  bindinv H. destruct x as [a q1]. bindinv H. rename x into q2. destruct (wrote_ask _ _ _ _ _ E) as (W1 & _). destruct (wrote_ask_ _ _ _ _ E0) as (b & W2 & _).
  destruct (IH _ _ H) as (lg & W3 & N). eexists. split; [eapply wrote_app; [eapply wrote_app; [exact W1|exact W2]|exact W3]|]. cbn [app]. constructor. exact N.
Qed.

(** ** C55: what gdxmerge writes *)

Lemma count_sources : forall o files, count_of (sources o files) <= total files.
Proof.
  intros o files. unfold total. change (fold_right _ 0 (sources no_mopts files)) with (count_of (sources no_mopts files)).
  induction files as [|h files IH]; [reflexivity|]. rewrite !sources_cons, !count_app. assert (X : forall ys, count_of (sources_of o h ys) <= count_of (sources_of no_mopts h ys)); [|specialize (X (h_syms h)); lia].
  induction ys as [|y ys IY]; [reflexivity|]. rewrite !sources_of_cons, !count_app. assert (Y : count_of (taken o h y) <= count_of (taken no_mopts h y)); [|lia].
  unfold taken. change (wanted no_mopts (y_name y)) with true. rewrite andb_true_r. destruct (y_dim y <? 20); cbn [andb]; [|reflexivity]. destruct (wanted o (y_name y)); [reflexivity|apply count_nonneg].
Qed.

Lemma open_code : forall z out prod compr g r g', exec z (gdxOpenWriteEx out prod compr) g = Done (r, g') -> hd 0 (r_ints r) = 0 -> r_code r = 1.
Proof.
  intros z out prod compr g r g' H R. change (open_write z out prod compr g = Done (r, g')) in H. unfold open_write in H.
  destruct (negb _); [injection H as <- _; discriminate R|]. destruct out as [|c out]; [injection H as <- _; discriminate R|].
  unfold create_file in H. destruct (write_string prod) as [p|]; [|discriminate H]. rewrite obind_done in H.
  destruct (s_write _ _) as [s1|]; [|discriminate H]. rewrite obind_done in H. destruct (s_getpos _ _) as [[p1 s2]|]; [|discriminate H]. rewrite obind_done in H.
  destruct (s_write _ _) as [s3|]; [|discriminate H]. rewrite obind_done in H. destruct (s_getpos _ _) as [[p2 s4]|]; [|discriminate H]. rewrite obind_done in H. injection H as <- _. reflexivity.
Qed.
(** *** Between the files the object is ready for symbols *)

Definition registering (q : mst) : Prop := g_mode (q_g q) = f_str_elem /\ g_aft (q_g q) = fw_init.
Lemma registering_to : forall q q', registering q -> q_g q' = q_g q -> registering q'.
Proof. intros q q' (A & B) E. unfold registering. rewrite E. auto. Qed.
Lemma add_uel_reg : forall z s q v q', add_uel z s q = Done (v, q') -> registering q -> registering q'.
Proof.
  intros z s q v q' H (A & B). unfold add_uel in H. bindinv H. destruct x as [r x]. destruct (r_code r =? 0); [discriminate H|]. injection H as _ <-.
  apply ask_inv in E. destruct E as (E & _). change (register_str s (q_g q) = Done (r, q_g x)) in E. unfold register_str, checked in E. rewrite A in E. change (mode_in f_str_elem [f_str_elem]) with true in E. cbv iota in E.
  unfold registering. destruct (trim_store s) as [t|]; [|discriminate E]. rewrite obind_done in E. destruct (good_uel t).
  - destruct (add_usr_new _ _) as [[n d]|]; [|discriminate E]. rewrite obind_done in E. injection E as _ <-. cbn [g_mode g_aft set_g_dic]. auto.
  - unfold fail_with in E. injection E as _ <-. cbn [g_mode g_aft set_error upd_err upd set_g_err]. auto.
Qed.
Lemma add_from_reg : forall z ls i q q', add_from z i ls q = Done q' -> registering q -> registering q'.
Proof.
  intros z. induction ls as [|l ls IH]; intros i q q' H R; cbn [add_from] in H; [injection H as <-; exact R|]. bindinv H. destruct x as [v q1]. eapply IH; [exact H|].
  eapply registering_to; [eapply add_uel_reg; [exact E|exact R]|reflexivity].
Qed.
Lemma take_recs_reg : forall z h n dim typ l q q', take_recs z h n dim typ l q = Done q' -> registering q -> registering q'.
Proof.
  intros z h n dim typ. induction l as [|r l IH]; intros q q' H R; cbn [take_recs] in H; [injection H as <-; exact R|]. bindinv H. rename x into q1. bindinv H. destruct x as [v q2]. bindinv H. rename x into q3.
  eapply IH; [exact H|].
  assert (R1 : registering q1).
  { destruct (0 <? dim); [|injection E as <-; exact R]. destruct (_ <? 1); [discriminate E|]. eapply add_from_reg; [exact E|exact R]. }
  assert (G2 : q_g q2 = q_g q1).
  { unfold pool_text in E0. destruct (m_vals r) as [|x rest]; [discriminate E0|]. destruct (_ && _); [|injection E0 as _ <-; reflexivity]. destruct (d_round x); [|discriminate E0]. bindinv E0.
    destruct (sl_add _ _ _ _) as [p i]. injection E0 as _ <-. reflexivity. }
  assert (G3 : q_g q3 = q_g q2).
  { unfold add_record in E1. destruct (znth _ _) as [j|]; [|discriminate E1]. destruct (j_data j); [|discriminate E1]. injection E1 as <-. reflexivity. }
  eapply registering_to; [exact R1|congruence].
Qed.
Lemma take_symbol_reg : forall z o p h y q q', take_symbol z o p h y q = Done q' -> registering q -> registering q'.
Proof.
  intros z o p h y q q' H R. unfold take_symbol in H. destruct (negb _); [injection H as <-; exact R|].
  destruct (find_or_add o y q) as [[n q1]|] eqn:F; [|injection H as <-; exact R].
  assert (G1 : q_g q1 = q_g q).
  { unfold find_or_add in F. destruct (sym_index _ _ _); [injection F as _ <-; reflexivity|]. destruct (wanted _ _); [injection F as _ <-; reflexivity|discriminate F]. }
  destruct (znth _ _) as [j|]; [|discriminate H]. destruct (j_data j) as [l|]; [|injection H as <-; eapply registering_to; [exact R|exact G1]]. destruct (j_skip j); [injection H as <-; eapply registering_to; [exact R|exact G1]|].
  cbv zeta in H. destruct (_ && _); [injection H as <-; eapply registering_to; [exact R|exact G1]|]. destruct (match p with p_all => _ | p_scan => _ | p_small => _ | p_big => _ end); [injection H as <-; eapply registering_to; [exact R|exact G1]|].
  destruct (negb _); [injection H as <-; eapply registering_to; [exact R|exact G1]|]. bindinv H. destruct x as [v q2]. eapply take_recs_reg; [exact H|].
  eapply registering_to; [eapply add_uel_reg; [exact E|]|reflexivity]. eapply registering_to; [exact R|exact G1].
Qed.
Lemma take_symbols_reg : forall z o p h l q q', take_symbols z o p h l q = Done q' -> registering q -> registering q'.
Proof.
  intros z o p h. induction l as [|y l IH]; intros q q' H R; cbn [take_symbols] in H; [injection H as <-; exact R|]. bindinv H. eapply IH; [exact H|]. eapply take_symbol_reg; [exact E|exact R].
Qed.
Lemma add_files_ready : forall z o p l q q', add_files z o p l q = Done q' -> g_mode (q_g q) = fw_init -> g_mode (q_g q') = fw_init.
Proof.
  intros z o p. induction l as [|h l IH]; intros q q' H M; cbn [add_files] in H; [injection H as <-; exact M|]. bindinv H. rename x into q1. eapply IH; [exact H|]. clear H.
  unfold add_file in E. bindinv E. rename x into q2. bindinv E. rename x into q3. apply ask__inv in E0. destruct E0 as (r2 & X2 & Q2). apply ask__inv in E. destruct E as (r1 & X1 & Q1).
  assert (R2 : registering q2).
  { change (register_str_start (q_g q) = Done (r2, q_g q2)) in X2. unfold register_str_start, checked, okay in X2. rewrite M in X2. change (mode_in fw_init [fr_init; fw_init]) with true in X2. cbv iota in X2. injection X2 as _ X2.
    unfold registering. rewrite <- X2. cbn [g_mode g_aft set_g_mode set_g_aft]. split; [reflexivity|]. unfold after_reg. rewrite M. reflexivity. }
  destruct (take_symbols_reg _ _ _ _ _ _ _ E1 R2) as (A & B).
  change (register_done (q_g q3) = Done (r1, q_g q1)) in X1. unfold register_done, checked, okay in X1. rewrite A in X1. change (mode_in f_str_elem _) with true in X1. cbv iota in X1. injection X1 as _ X1. rewrite <- X1. exact B.
Qed.

Theorem C55_merged : forall z o out compr files g q, merge_files z o out compr files g = Done q ->
  o_big o = None -> Forall file_ok files -> few files -> consistent o files ->
  exists r0 r1 g1, did z g (q_log q) (q_g q) /\
  ((hd 0 (r_ints r0) <> 0 /\ q_log q = [(gdxOpenWriteEx out (s2z "gdxmerge") compr, r0); (gdxStoreDomainSetsSet 0, r1)]) \/
   exists regs segs searches k a names b c,
     q_log q = [(gdxOpenWriteEx out (s2z "gdxmerge") compr, r0); (gdxStoreDomainSetsSet 0, r1)] ++ regs ++ concat segs ++ searches ++
               (gdxDataWriteStrStart (set_name k) (s2z "Merge set") 1 dt_set 0, a) :: names ++ [(gdxDataWriteDone, b); (gdxClose, c)] /\
     hd 0 (r_ints r0) = 0 /\ did z g ([(gdxOpenWriteEx out (s2z "gdxmerge") compr, r0); (gdxStoreDomainSetsSet 0, r1)] ++ regs) g1 /\ g_mode g1 = fw_init /\
     Forall (fun x => is_registration (fst x)) regs /\ Forall (fun x => is_search (fst x)) searches /\
     (exists before r, searches = before ++ [(gdxFindSymbol (set_name k), r)] /\ hd 0 (r_ints r) < 0) /\ 1 <= k /\ names_written files names /\
     Forall2 (fun y lg => symbol_written z g1 y (text_for (sources o files) y) (records_for (sources o files) y) lg) (heads (sources o files)) segs).
Proof.
  intros z o out compr files g q H OB FO FW CO. unfold merge_files in H. bindinv H. destruct x as [r0 q0]. bindinv H. rename x into q1.
  destruct (wrote_ask _ _ _ _ _ E) as (W0 & S0). destruct (wrote_ask_ _ _ _ _ E0) as (r1 & W1 & S1). pose proof (wrote_app _ _ _ _ _ _ W0 W1) as W. cbn [app] in W.
  exists r0, r1. destruct (hd 0 (r_ints r0) =? 0) eqn:R0; cbn [negb] in H.
  2:{ injection H as <-. exists g. destruct W as (L & D & _). cbn [start_mst q_log app] in L. rewrite L. split; [exact D|]. left. split; [apply Z.eqb_neq; exact R0|reflexivity]. }
  assert (M1 : g_mode (q_g q1) = fw_init).
  { destruct (ask_inv _ _ _ _ _ E) as (X0 & _). destruct (ask__inv _ _ _ _ E0) as (r1' & X1 & _). pose proof (open_code _ _ _ _ _ _ _ X0 (proj1 (Z.eqb_eq _ _) R0)) as RC.
    destruct (created_facts z (q_g q0)) as (MM & _); [exists g, out, (s2z "gdxmerge"), compr, r0; split; [exact X0|exact RC]|]. cbn [exec] in X1. injection X1 as _ X1. rewrite <- X1. exact MM. }
  assert (ID : ident (g_dic (q_g q1)) /\ q_pool q1 = [([], tt)] /\ q_idx q1 = no_idx /\ q_syms q1 = []).
  { destruct (ask_inv _ _ _ _ _ E) as (X0 & Q0). destruct (ask__inv _ _ _ _ E0) as (r1' & X1 & Q1). rewrite Q1, Q0. cbn [q_g q_pool q_idx q_syms start_mst].
    assert (RC : r_code r0 = 1).
    { eapply open_code; [exact X0|apply Z.eqb_eq; exact R0]. }
    destruct (created_facts z (q_g q0)) as (_ & _ & _ & _ & _ & mt & uc & DD).
    { exists g, out, (s2z "gdxmerge"), compr, r0. split; [exact X0|exact RC]. }
    cbn [exec] in X1. injection X1 as _ X1. rewrite <- X1. unfold upd_env, upd. cbn [g_dic]. change (ident (g_dic (q_g q0)) /\ q_pool (start_mst g) = [([], tt)] /\ q_idx (start_mst g) = no_idx /\ q_syms (start_mst g) = []).
    rewrite DD. split; [|repeat split]. split; [|split; [reflexivity|exact im_new_inv]]. cbn [d_uels]. intros i e C. apply znth_Some in C. unfold zlen in C. cbn in C. lia. }
  destruct ID as (ID & P1 & X1 & Y1). bindinv H. rename x into q3. unfold collect in E1. rewrite OB in E1. bindinv E1. rename x into q2.
  set (all := flat_map (fun h => List.map (pair h) (h_syms h)) files).
  assert (IA : forall h y, In h files -> In y (h_syms h) -> In (h, y) all).
  { intros h y I1 I2. apply in_flat_map. exists h. split; [exact I1|]. apply in_map. exact I2. }
  assert (AI : forall s, In s all -> In (fst s) files /\ In (snd s) (h_syms (fst s))).
  { intros s I. apply in_flat_map in I. destruct I as (h & I1 & I2). apply in_map_iff in I2. destruct I2 as (y & <- & I2). auto. }
  assert (TM : tame o (total files) all).
  { intros s I. destruct (AI _ I) as (I1 & I2). rewrite Forall_forall in FO. pose proof (FO _ I1) as F1. unfold file_ok in F1. rewrite Forall_forall in F1. split; [apply F1; exact I2|].
    split; [apply (FW _ _ I1 I2)|]. intros t J SN. destruct (AI _ J) as (J1 & J2). apply (CO _ _ _ _ I1 I2 J1 J2 SN). }
  assert (C0 : collected z q1 [] q1).
  { split; [apply regd_refl; auto|rewrite X1; reflexivity|rewrite P1|rewrite P1; unfold zlen, count_of; cbn; lia|rewrite Y1; constructor].
    split; [reflexivity|]. intros i C. apply znth_Some in C. unfold zlen in C. cbn in C. lia. }
  pose proof (add_files_ok z o q1 (total files) all files q1 q2 [] TM IA ltac:(intros s []) (count_sources o files) C0 E2) as [RG _ _ PS FS]. cbn [app] in PS, FS.
  assert (SI : Forall (fun s => In s all) (sources o files)).
  { apply Forall_forall. intros s I. unfold sources in I. apply in_flat_map in I. destruct I as (h & I1 & I2). apply in_map_iff in I2. destruct I2 as (y & <- & I2). apply filter_In in I2. apply IA; [exact I1|apply I2]. }
  assert (OKS : Forall (fun s => sym_ok (snd s)) (sources o files)) by (eapply Forall_impl; [|exact SI]; intros s I; apply (TM s I)).
  assert (PB : zlen (q_pool q2) <= 2^31).
  { pose proof (count_sources o files) as CS. destruct (sources o files) as [|s0 ss]; [unfold count_of in PS; cbn in PS; lia|]. inversion_clear SI as [|? ? I0 _]. destruct (TM _ I0) as ((_ & _ & Y0) & Y2 & _). lia. }
  destruct (write_symbols_ok z o (q_g q2) (sources o files) (heads (sources o files)) (q_syms q2) [] q2 q3 FS OKS PB eq_refl E1) as (segs & W3 & FSW).
  bindinv H. rename x into q5. unfold write_name_list in E3. bindinv E3. destruct x as [nm q31]. destruct (free_name_ok _ _ _ _ _ _ E4) as (searches & W4 & FSR & k & before & rn & -> & K1 & K2 & K3).
  bindinv E3. rename x into q32. destruct (wrote_ask_ _ _ _ _ E5) as (a & W5 & _). bindinv E3. rename x into q33. destruct (write_names_ok _ _ _ _ E6) as (names & W6 & NW).
  destruct (wrote_ask_ _ _ _ _ E3) as (b & W7 & _). destruct (wrote_ask_ _ _ _ _ H) as (c & W8 & _).
  destruct RG as (regs & R1 & R2 & R3 & _).
  pose proof (wrote_app _ _ _ _ _ _ (wrote_app _ _ _ _ _ _ W3 W4) (wrote_app _ _ _ _ _ _ (wrote_app _ _ _ _ _ _ W5 W6) (wrote_app _ _ _ _ _ _ W7 W8))) as (L1 & L2 & _).
  destruct W as (L3 & L4 & _). cbn [start_mst q_log app q_g] in L3, L4. exists (q_g q2).
  pose proof (did_app _ _ _ _ _ _ L4 R3) as D1. split.
  - rewrite L1, R1, L3. eapply did_app; [exact D1|exact L2].
  - right. exists regs, segs, searches, k, a, names, b, c. split; [rewrite L1, R1, L3; rewrite <- !app_assoc; reflexivity|]. split; [apply Z.eqb_eq; exact R0|]. split; [exact D1|]. split; [eapply add_files_ready; [exact E2|exact M1]|]. split; [exact R2|]. split; [exact FSR|]. split; [eauto|]. split; [exact K1|]. split; [exact NW|exact FSW].
Qed.

(** Records of a symbol that name different things get different indices in increasing
    order: none of them is refused for the order ([C02_accepted_exactly]). *)
Definition identity (hr : mfile * mrec) : list str := List.map (fun s => upper (trim_right s)) (h_id (fst hr) :: m_labels (snd hr)).
Lemma stands_one : forall z g s t k, stands z g s k -> stands z g t k -> upper (trim_right s) = upper (trim_right t).
Proof.
  intros z g s t k (u & (u1 & st1 & L1) & A) (v & (u2 & st2 & L2) & B). rewrite L1 in L2. injection L2 as _ <- _. congruence.
Qed.
Lemma sorted_strict : forall z g sorted keys, Forall2 (fun hr k => Forall2 (stands z g) (h_id (fst hr) :: m_labels (snd hr)) k) sorted keys -> NoDup (List.map identity sorted) ->
  StronglySorted lex_le keys -> StronglySorted lex_lt keys.
Proof.
  intros z g sorted keys F. induction F as [|hr k sorted keys X F IH]; intros ND SS; [constructor|]. cbn [List.map] in ND. inversion_clear ND as [|? ? N1 N2]. inversion_clear SS as [|? ? S1 S2].
  constructor; [apply IH; assumption|]. apply Forall_forall. intros k' I. rewrite Forall_forall in S2. destruct (S2 k' I) as [<-|L]; [|exact L]. exfalso. apply N1.
  clear - F X I. induction F as [|hr' k' l m Y F IH]; [destruct I|]. destruct I as [->|I]; [left|right; apply IH; exact I].
  unfold identity. revert X Y. generalize (h_id (fst hr) :: m_labels (snd hr)) as a, (h_id (fst hr') :: m_labels (snd hr')) as b. intros a b X. revert b. clear - X.
  induction X as [|s n a k X1 X IH]; intros b Y; inversion Y as [|t ? b' ? Y1 Y2]; subst; cbn [List.map]; [reflexivity|]. rewrite (IH b' Y2). f_equal. eapply stands_one; eassumption.
Qed.
Theorem C55_in_order : forall z g y text recs lg, symbol_written z g y text recs lg -> NoDup (List.map identity recs) -> written_in lex_lt z g y text recs lg.
Proof.
  intros z g y text recs lg (a & b & sorted & keys & lines & A1 & A2 & A3 & A4 & A5) ND. exists a, b, sorted, keys, lines. split; [exact A1|]. split; [exact A2|]. split; [|split; [exact A4|exact A5]].
  eapply sorted_strict; [exact A2| |exact A3]. eapply Permutation_NoDup; [|exact ND]. apply Permutation_map. exact A1.
Qed.

(** *** A case: two files with a parameter and a set *)

Definition mg_x1 := mkMsym (s2z "x") 1 dt_par 0 [] 2 [mkMrec 1 [s2z "b"] [fofZ 3]; mkMrec 1 [s2z "a"] [fofZ 4]].
Definition mg_x2 := mkMsym (s2z "X") 1 dt_par 0 (s2z "data") 1 [mkMrec 1 [s2z "A"] [fofZ 5]].
Definition mg_s := mkMsym (s2z "s") 2 dt_set 0 [] 2 [mkMrec 1 [s2z "b"; s2z "c"] [fofZ 1]; mkMrec 2 [s2z "b"; s2z "d"] [0]].
Definition mg_texts (n : Z) : outcome str := Done (s2z "some text").
Definition mg_f1 := mkMfile (s2z "one") (s2z "1.gdx") [mg_x1; mg_s] mg_texts.
Definition mg_f2 := mkMfile (s2z "two") (s2z "2.gdx") [mg_x2; mg_s] mg_texts.
Definition mg_files := [mg_f1; mg_f2].
Definition mg_run (o : mopts) (files : list mfile) : outcome mst := merge_files rle_zlib o (s2z "o.gdx") 0 files case_object.
Definition mg_log (o : mopts) (files : list mfile) : list (call * resp) := match mg_run o files with Done q => q_log q | UB => [] end.

Lemma mg_sym_ok : forall y, In y [mg_x1; mg_x2; mg_s] -> sym_ok y.
Proof. intros y [<-|[<-|[<-|[]]]]; (split; [vm_compute; discriminate|]); (split; [|vm_compute; discriminate]); cbn; repeat split; lia. Qed.
Example C55_case : (exists q, mg_run no_mopts mg_files = Done q) /\ Forall file_ok mg_files /\ few mg_files /\ consistent no_mopts mg_files /\
  List.map y_name (heads (sources no_mopts mg_files)) = [s2z "x"; s2z "s"] /\ text_for (sources no_mopts mg_files) mg_x1 = s2z "data" /\
  List.map identity (records_for (sources no_mopts mg_files) mg_x1) = [[s2z "ONE"; s2z "B"]; [s2z "ONE"; s2z "A"]; [s2z "TWO"; s2z "A"]].
Proof.
  split; [eexists; vm_compute; reflexivity|]. split; [|split; [|split; [|split; [reflexivity|split; [reflexivity|reflexivity]]]]].
  - constructor; [|constructor; [|constructor]]; (apply Forall_forall; intros y I; apply mg_sym_ok; cbn in *; tauto).
  - intros h y [<-|[<-|[]]] [<-|[<-|[]]]; vm_compute; discriminate.
  - intros h y h' y' _ _ _ _ _. reflexivity.
Qed.
(** The calls between registering the labels and the list of files. *)
Definition is_record_call (x : call * resp) : bool := match fst x with gdxDataWriteRawStart _ _ _ _ _ | gdxDataWriteRaw _ _ | gdxAddSetText _ => true | _ => false end.
Example C55_case_calls : filter is_record_call (mg_log no_mopts mg_files) =
  [(gdxDataWriteRawStart (s2z "x") (s2z "data") 2 dt_par 0, ret 1); (gdxDataWriteRaw [1; 2] [fofZ 3], ret 1); (gdxDataWriteRaw [1; 3] [fofZ 4], ret 1); (gdxDataWriteRaw [6; 3] [fofZ 5], ret 1);
   (gdxDataWriteRawStart (s2z "s") [] 3 dt_set 0, ret 1); (gdxAddSetText (s2z "some text"), ret_i 1 [1]); (gdxDataWriteRaw [1; 2; 4] [fofZ 1], ret 1); (gdxDataWriteRaw [1; 2; 5] [0], ret 1);
   (gdxAddSetText (s2z "some text"), ret_i 1 [1]); (gdxDataWriteRaw [6; 2; 4] [fofZ 1], ret 1); (gdxDataWriteRaw [6; 2; 5] [0], ret 1);
   (gdxAddSetText (s2z "1.gdx"), ret_i 1 [2]); (gdxAddSetText (s2z "2.gdx"), ret_i 1 [3])].
Proof. vm_compute. reflexivity. Qed.

(** ** C56: the options, and files with the same name *)

Definition symbols_started (lg : list (call * resp)) : list str := flat_map (fun x => match fst x with gdxDataWriteRawStart n _ _ _ _ => [n] | _ => [] end) lg.
Definition texts_started (lg : list (call * resp)) : list str := flat_map (fun x => match fst x with gdxDataWriteRawStart _ t _ _ _ => [t] | _ => [] end) lg.
Definition labels_registered (lg : list (call * resp)) : list str := flat_map (fun x => match fst x with gdxUELRegisterStr s => if r_code (snd x) =? 1 then [s] else [] | _ => [] end) lg.
Definition records_refused (lg : list (call * resp)) : Z := zlen (filter (fun x => match fst x with gdxDataWriteRaw _ _ => r_code (snd x) =? 0 | _ => false end) lg).

(** The symbols of the output are those with a name that is asked for (or not excluded). *)
Definition asked (o : mopts) (n : str) : Prop := (o_incl o = [] \/ In n (o_incl o)) /\ ~ In n (o_excl o).
Lemma in_names_spec : forall l n, in_names l n = true <-> In n l.
Proof. intros l n. unfold in_names. rewrite existsb_exists. split; [intros (x & A & B); apply str_eqb_spec in B; congruence|intros A; exists n; split; [exact A|apply str_eqb_spec; reflexivity]]. Qed.
Lemma wanted_spec : forall o n, wanted o n = true <-> asked o n.
Proof.
  intros o n. unfold wanted, asked. rewrite andb_true_iff.
  assert (A : match o_incl o with [] => true | l => in_names l n end = true <-> o_incl o = [] \/ In n (o_incl o)).
  { destruct (o_incl o) as [|a l]; [tauto|]. rewrite in_names_spec. split; [auto|intros [C|C]; [discriminate C|exact C]]. }
  assert (B : match o_excl o with [] => true | l => negb (in_names l n) end = true <-> ~ In n (o_excl o)).
  { destruct (o_excl o) as [|a l]; [split; [intros _ []|reflexivity]|]. rewrite negb_true_iff, <- not_true_iff_false, in_names_spec. tauto. }
  tauto.
Qed.
Theorem C56_selection : forall o files y, In y (heads (sources o files)) ->
  asked o (y_name y) /\ y_dim y < 20 /\ exists h, In h files /\ In y (h_syms h).
Proof.
  intros o files y H. apply heads_sources in H. destruct H as (s & H & <-). unfold sources in H. apply in_flat_map in H. destruct H as (h & H1 & H2). apply in_map_iff in H2.
  destruct H2 as (y & <- & H2). apply filter_In in H2. destruct H2 as (H2 & H3). apply andb_true_iff in H3. destruct H3 as (H3 & H4). apply Z.ltb_lt in H3. apply wanted_spec in H4. cbn [snd]. eauto.
Qed.
Theorem C56_all_selected : forall o files h y, In h files -> In y (h_syms h) -> y_dim y < 20 -> asked o (y_name y) ->
  exists y0, In y0 (heads (sources o files)) /\ same_name y0 y.
Proof.
  intros o files h y H1 H2 H3 H4. apply wanted_spec in H4. destruct (heads_cover (sources o files) (h, y)) as (y0 & A & B); [|exists y0; split; [exact A|exact B]].
  unfold sources. apply in_flat_map. exists h. split; [exact H1|]. apply in_map. apply filter_In. split; [exact H2|]. apply Z.ltb_lt in H3. rewrite H3, H4. reflexivity.
Qed.

(** Names of symbols are the same in upper and lower case, but not for the options. *)
Theorem C56_names_by_case_refuted : exists files id y, In y (flat_map h_syms files) /\ upper (y_name y) = upper id /\
  symbols_started (mg_log (mkMopts [id] [] None) files) = [] /\ symbols_started (mg_log (mkMopts [] [id] None) files) = [y_name y].
Proof. exists [mkMfile (s2z "two") (s2z "2.gdx") [mg_x2] mg_texts], (s2z "x"), mg_x2. split; [left; reflexivity|]. split; [reflexivity|]. split; vm_compute; reflexivity. Qed.
(** With BIG a label gets registered that is in none of the files, and texts of symbols get
    lost. *)
Theorem C56_big_refuted : exists files, ~ In [] (List.map h_id files ++ flat_map m_labels (flat_map y_recs (flat_map h_syms files))) /\
  In [] (labels_registered (mg_log (mkMopts [] [] (Some 0)) files)) /\ ~ In [] (labels_registered (mg_log no_mopts files)) /\
  texts_started (mg_log no_mopts files) = [s2z "data"] /\ texts_started (mg_log (mkMopts [] [] (Some 0)) files) = [[]].
Proof.
  exists [mkMfile (s2z "two") (s2z "2.gdx") [mg_x2] mg_texts]. split; [|split; [|split; [|split; vm_compute; reflexivity]]].
  - vm_compute. intros [C|[C|[]]]; discriminate C.
  - vm_compute. tauto.
  - vm_compute. intros [C|[C|[]]]; discriminate C.
Qed.
(** With BIG a scalar is undefined behaviour. *)
Theorem C56_big_scalar_refuted : exists files, Forall file_ok files /\ (exists q, mg_run no_mopts files = Done q) /\ mg_run (mkMopts [] [] (Some 0)) files = UB.
Proof.
  exists [mkMfile (s2z "one") (s2z "1.gdx") [mkMsym (s2z "c") 0 dt_par 0 [] 1 [mkMrec 0 [] [fofZ 3]]] mg_texts].
  split; [|split; [eexists; vm_compute; reflexivity|vm_compute; reflexivity]].
  constructor; [|constructor]. constructor; [|constructor]. split; [vm_compute; discriminate|]. split; [cbn; repeat split; lia|vm_compute; discriminate].
Qed.
(** Files with the same name (of other directories): records get lost. *)
Theorem C56_same_file_name_refuted : exists h1 h2, h_id h1 = h_id h2 /\ h_info h1 <> h_info h2 /\ records_refused (mg_log no_mopts [h1]) = 0 /\ records_refused (mg_log no_mopts [h2]) = 0 /\
  records_refused (mg_log no_mopts [h1; h2]) = 1.
Proof.
  exists (mkMfile (s2z "d") (s2z "a/d.gdx") [mg_x1] mg_texts), (mkMfile (s2z "d") (s2z "b/d.gdx") [mg_x2] mg_texts).
  split; [reflexivity|]. split; [vm_compute; discriminate|]. split; [vm_compute; reflexivity|]. split; vm_compute; reflexivity.
Qed.

Print Assumptions C55_merged.
Print Assumptions C55_in_order.
Print Assumptions C56_selection.
Print Assumptions C56_all_selected.
Print Assumptions C56_names_by_case_refuted.
Print Assumptions C56_big_refuted.
Print Assumptions C56_big_scalar_refuted.
Print Assumptions C56_same_file_name_refuted.
