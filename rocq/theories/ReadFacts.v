(** * ReadFacts: an object that reads a file

    While a file is open for reading its contents and the places of the data blocks stay
    as they are, whatever calls are made; and reading a data block yields the records it
    holds. *)

From Coq Require Import String.
From Verif Require Import Base Prim Values Records LinkedData StrHash IntMap Strings AStream BufStream State
  FileImage ApiCore ApiFile ApiWrite ApiRead Api FileFacts BlockFacts StreamFacts OpenFacts DicInv WriteInv Journal WriteCalls WriteTrace
  WriteSteps Footprint SessInv FileFlow Sessions Vocab Reopen.
Open Scope Z_scope.
Open Scope list_scope.

(** ** The reading object *)

Definition in_read (st : gst) : Prop := In (g_mode st) read_modes \/ (In (g_mode st) elem_modes /\ g_aft st = fr_init).
(** The same symbol, as far as its records are concerned. *)
Definition same_place (a b : str * sym) : Prop := same_data (snd a) (snd b) /\ sy_uinfo (snd b) = sy_uinfo (snd a).

(** The object reads the file [F], whose symbol table is [tab], and which has [k] labels. *)
Record reads_file (z : zlib) (F : list Z) (tab : list (str * sym)) (k : Z) (st : gst) : Prop := mkReads {
  rf_mode : in_read st;
  rf_strm : exists s, f_strm (g_fil st) = Some s /\ rd_ok F s;
  rf_bo : f_bo (g_fil st) = (z_host z);
  rf_ver : f_ver (g_fil st) = GDX_VERSION;
  rf_map : d_maptext (g_dic st) = None;
  rf_nn : d_nn (g_dic st) = true;
  rf_un : d_un (g_dic st) = true;
  rf_cnt : d_uelcnt (g_dic st) = k;
  rf_uels : 0 <= k <= uel_count (g_dic st);
  rf_tab : Forall2 same_place tab (d_names (g_dic st))
}.

Lemma same_place_refl : forall a, same_place a a.
Proof. intros a. repeat split. Qed.
Lemma same_place_trans : forall a b c, same_place a b -> same_place b c -> same_place a c.
Proof. unfold same_place, same_data. intros a b c H K. intuition congruence. Qed.
Lemma Forall2_refl : forall {A} (P : A -> A -> Prop) l, (forall a, P a a) -> Forall2 P l l.
Proof. intros A P l H. induction l; constructor; auto. Qed.
Lemma Forall2_trans : forall {A B C} (P : A -> B -> Prop) (Q : B -> C -> Prop) (R : A -> C -> Prop) l m n,
  (forall a b c, P a b -> Q b c -> R a c) -> Forall2 P l m -> Forall2 Q m n -> Forall2 R l n.
Proof. intros A B C P Q R l m n H F. revert n. induction F; intros n G; inversion G; subst; constructor; eauto. Qed.

Lemma Forall2_znth_l : forall {A B} (P : A -> B -> Prop) l m i a, Forall2 P l m -> znth l i = Some a -> exists b, znth m i = Some b /\ P a b.
Proof.
  intros A B P l m i a F. unfold znth. destruct (i <? 0); [discriminate|]. generalize (Z.to_nat i) as n.
  induction F as [| x y l m H F IH]; intros [|n]; cbn; intros Y; try discriminate.
  - injection Y as <-. eauto.
  - apply IH. exact Y.
Qed.
Lemma places_upd : forall tab d n f, Forall2 same_place tab (d_names d) ->
  (forall s, get_sym d n = Some s -> same_place ([], s) ([], f s)) -> Forall2 same_place tab (d_names (upd_sym n f d)).
Proof.
  intros tab d n f H K. unfold upd_sym. destruct (znth (d_names d) (n - 1)) as [e|] eqn:E; [|exact H].
  cbn [d_names set_d_names]. eapply Forall2_trans; [apply same_place_trans|exact H|].
  pose proof (Forall2_zset2 same_place (d_names d) (d_names d) (n - 1) e (fst e, f (snd e))) as Z.
  rewrite (zset_same _ _ _ E) in Z. apply Z; [apply Forall2_refl; apply same_place_refl|].
  assert (G : get_sym d n = Some (snd e)) by (unfold get_sym; rewrite E; reflexivity).
  exact (K _ G).
Qed.

Lemma puts_names : forall c, puts c = false -> names_of c = [].
Proof. intros []; cbn; congruence. Qed.

Lemma places_step : forall c tab d d', puts c = false -> datom c d d' -> Forall2 same_place tab (d_names d) -> Forall2 same_place tab (d_names d').
Proof.
  intros c tab d d' PU A H. destruct A; try exact H.
  - rewrite (puts_names _ PU) in H0. destruct H0.
  - apply places_upd; [exact H|]. intros s G. specialize (H0 s G). destruct H1 as [X|H1]; [congruence|]. specialize (H1 s).
    unfold sym_keeps in H0. repeat split; cbn; symmetry; intuition.
  - apply places_upd; [exact H|]. intros s G. repeat split.
  - apply places_upd; [exact H|]. intros s G. repeat split.
  - apply places_upd; [exact H|]. intros s G. repeat split.
  - unfold uel_add. destruct (sl_add _ _ _ _). exact H.
  - unfold map_status. rewrite H0. exact H.
Qed.

Lemma uels_grow : forall c d d', datom c d d' -> uel_count d <= uel_count d'.
Proof.
  intros c d d' A. unfold uel_count. destruct (uels_cases c d d' A) as [(E & _)|[(s & _ & _ & _ & _ & E & _)|[(n & e & s & o & w & _ & _ & _ & _ & _ & E & _)|[(en & n & m & e & _ & _ & _ & _ & _ & _ & E & _)|(n & e & _ & E & _)]]]]; rewrite E.
  - lia.
  - rewrite zlen_app. unfold zlen. cbn. lia.
  - rewrite zset_length. lia.
  - rewrite zset_length. lia.
  - rewrite zset_length. lia.
Qed.

Section Z.
Context (z : zlib).

Lemma reads_atom : forall c F tab k a b, puts c = false -> reads_file z F tab k a -> atom c a b -> reads_file z F tab k b.
Proof.
  intros c F tab k a b PU Q A. destruct Q as [Q1 Q2 Q3 Q4 Q5 Q6 Q7 Q8 QU Q9]. destruct A.
  - destruct H as [X|H]; [congruence|]. constructor; try assumption. left. exact H.
  - congruence.
  - constructor; try assumption. right. split; [exact H0|].
    destruct Q1 as [Q1|[Q1 _]]; destruct (g_mode st) eqn:M; try discriminate H; cbn in Q1; try (intuition discriminate); unfold after_reg; cbn; rewrite M; reflexivity.
  - constructor; try assumption. left. destruct Q1 as [Q1|[_ Q1]].
    + unfold elem_modes in H. destruct (g_mode st); try discriminate H; cbn in Q1; intuition discriminate.
    + cbn. rewrite Q1. auto.
  - constructor; assumption.
  - apply (numbered_datom c) in H. destruct (flags_keep c _ _ H) as (H1 & H2 & H3 & H4 & H5).
    constructor; try assumption; cbn; try congruence; [pose proof (uels_grow c _ _ H); lia|]. eapply places_step; eassumption.
  - destruct H as (s0 & E & [X|H]); [congruence|]. destruct Q2 as (s1 & E1 & R1). rewrite E in E1. injection E1 as ->.
    constructor; try assumption. eexists. split; [reflexivity|]. apply H. exact R1.
  - congruence.
  - rename H0 into HD. destruct (flags_keep c _ _ HD) as (H1 & H2 & H3 & H4 & H5).
    constructor; try assumption; cbn; try congruence; [pose proof (uels_grow c _ _ HD); lia|]. eapply places_step; eassumption.
  - unfold set_error. destruct (n =? 0); constructor; assumption.
  - constructor; assumption.
  - constructor; assumption.
  - constructor; assumption.
  - constructor; assumption.
Qed.

Lemma read_not_write : forall st l, in_read st -> (forall m, In m l -> ~ In m read_modes /\ ~ In m elem_modes) -> mode_in (g_mode st) l = false.
Proof.
  intros st l R H. destruct (mode_in (g_mode st) l) eqn:E; [|reflexivity]. exfalso. apply mode_in_true in E. destruct (H _ E). destruct R as [R|[R _]]; tauto.
Qed.
Lemma reads_err : forall F tab k n st, reads_file z F tab k st -> reads_file z F tab k (set_error n st).
Proof. intros F tab k n st []. unfold set_error. destruct (n =? 0); constructor; assumption. Qed.
Lemma reads_wrk : forall F tab k f st, reads_file z F tab k st -> reads_file z F tab k (upd_wrk f st).
Proof. intros F tab k f st []. constructor; assumption. Qed.
Lemma reads_list : forall F tab k f st, reads_file z F tab k st -> reads_file z F tab k (upd_err f st).
Proof. intros F tab k f st []. constructor; assumption. Qed.

(** While a file is read, a call that is of use only for writing changes nothing that
    matters. *)
Ltac notw := apply read_not_write; [assumption|]; intros ? ?; cbn in *; intuition (subst; discriminate).
Lemma puts_refused_gen : forall (P : gst -> Prop) c st r st', (forall n a, P a -> P (set_error n a)) -> (forall f a, P a -> P (upd_wrk f a)) ->
  (forall f a, P a -> P (upd_err f a)) -> in_read st -> puts c = true -> session_call c = true -> P st -> exec z c st = Done (r, st') -> P st'.
Proof.
  intros P c st r st' p_err p_wrk p_list RM PU SC Q E.
  assert (PW : forall name text dim typ uinfo, exists st1, prepare_symbol_write z name text dim typ uinfo st = Done (false, st1) /\ P st1).
  { intros. unfold prepare_symbol_write. cbv zeta. set (st1 := upd_wrk _ _). assert (Q1 : P st1) by (apply p_wrk, p_list; exact Q).
    assert (M1 : mode_in (g_mode st1) [fw_init] = false) by (change (g_mode st1) with (g_mode st); notw).
    rewrite M1. cbn [negb]. eexists. split; [reflexivity|]. apply p_err. exact Q1. }
  assert (EN : forall a b, In a [fw_dom_raw; fw_dom_map; fw_dom_str] -> enter a b st = st).
  { intros a b IN. unfold enter. assert (X : mode_in (g_mode st) [a] = false) by (cbn in IN; destruct IN as [<-|[<-|[<-|[]]]]; notw). rewrite X. reflexivity. }
  destruct c; try discriminate PU; try discriminate SC; cbn [exec] in E; clear PU SC.
  - unfold write_raw_start in E. destruct (PW name text dim typ uinfo) as (s1 & X & Q1). rewrite X in E. cbn in E. injection E as <- <-. exact Q1.
  - unfold write_raw_start_bounds in E. destruct (PW name text dim typ uinfo) as (s1 & X & Q1). rewrite X in E. cbn in E.
    repeat match type of E with (if ?b then _ else _) = _ => destruct b; try discriminate E end; injection E as <- <-; exact Q1.
  - unfold write_raw in E. rewrite EN in E by (cbn; auto). cbv zeta in E. unfold checked in E.
    assert (X : mode_in (g_mode st) [fw_raw_data] = false) by notw. rewrite X in E. unfold refuse in E. injection E as <- <-. apply p_err. exact Q.
  - unfold write_map_start in E. destruct (PW name text dim typ uinfo) as (s1 & X & Q1). rewrite X in E. cbn in E. injection E as <- <-. exact Q1.
  - unfold write_map in E. rewrite EN in E by (cbn; auto). cbv zeta in E. unfold checked in E.
    assert (X : mode_in (g_mode st) [fw_map_data] = false) by notw. rewrite X in E. unfold refuse in E. injection E as <- <-. apply p_err. exact Q.
  - unfold write_str_start in E. destruct (PW name text dim typ uinfo) as (s1 & X & Q1). rewrite X in E. cbn in E. injection E as <- <-. exact Q1.
  - unfold write_str in E. rewrite EN in E by (cbn; auto). cbv zeta in E. unfold checked in E.
    assert (X : mode_in (g_mode st) [fw_str_data] = false) by notw. rewrite X in E. unfold refuse in E. injection E as <- <-. apply p_err. exact Q.
  - unfold data_write_done, checked in E.
    match type of E with context [mode_in (g_mode st) ?l] => assert (X : mode_in (g_mode st) l = false) by notw; rewrite X in E end.
    unfold refuse in E. injection E as <- <-. apply p_err. exact Q.
  - unfold symbol_set_domain, checked in E. cbv zeta in E.
    match type of E with context [mode_in (g_mode st) ?l] => assert (X : mode_in (g_mode st) l = false) by notw; rewrite X in E end.
    unfold refuse in E. injection E as <- <-. apply p_err. exact Q.
  - unfold add_alias, checked in E.
    match type of E with context [mode_in (g_mode st) ?l] => assert (X : mode_in (g_mode st) l = false) by notw; rewrite X in E end.
    unfold refuse in E. injection E as <- <-. apply p_err. exact Q.
  - unfold register_raw_start, checked in E.
    match type of E with context [mode_in (g_mode st) ?l] => assert (X : mode_in (g_mode st) l = false) by notw; rewrite X in E end.
    unfold refuse in E. injection E as <- <-. apply p_err. exact Q.
Qed.

Lemma puts_refused : forall c F tab k st r st', puts c = true -> session_call c = true -> reads_file z F tab k st -> exec z c st = Done (r, st') -> reads_file z F tab k st'.
Proof.
  intros c F tab k st r st' PU SC Q E.
  exact (puts_refused_gen (reads_file z F tab k) c st r st' (reads_err F tab k) (reads_wrk F tab k) (reads_list F tab k) (rf_mode _ _ _ _ _ Q) PU SC Q E).
Qed.

Theorem reads_call : forall c F tab k st r st', session_call c = true -> call_ok c -> reads_file z F tab k st -> exec z c st = Done (r, st') ->
  reads_file z F tab k st'.
Proof.
  intros c F tab k st r st' SC OK Q E. destruct (puts c) eqn:PU; [eapply puts_refused; eassumption|].
  pose proof (session_ok z (reads_file z F tab k) (fun a H => reads_list _ _ _ _ a H) c st (fun a b => reads_atom c F tab k a b PU) SC OK Q) as X.
  rewrite E in X. exact X.
Qed.
Theorem reads_during : forall F tab k cs a b, during z cs a b -> reads_file z F tab k a -> reads_file z F tab k b.
Proof.
  intros F tab k cs a b (SC & OK & rs & R). revert a rs R. induction cs as [|c cs IH]; intros a rs R Q; cbn [run] in R.
  - injection R as _ <-. exact Q.
  - cbn [forallb] in SC. apply Bool.andb_true_iff in SC. destruct SC as [S1 S2]. inversion OK; subst.
    destruct (exec z c a) as [[r s]|] eqn:E; [|discriminate]. cbn [obind] in R.
    destruct (run z cs s) as [[rs' s']|] eqn:R2; [|discriminate]. cbn [obind] in R. injection R as _ <-.
    eapply IH; try eassumption. eapply reads_call; eassumption.
Qed.

(** After opening. *)
Lemma reads_reopened : forall F h m d R name s ops st, rd_ok F s -> complete z F h m d R ->
  reads_file z F (d_names d) (uel_count d) (ws s ops (opened name F (z_host z) h m (contents_of d) st)).
Proof.
  intros F h m d R name s ops st RO CP. constructor; try reflexivity.
  - left. cbn. auto.
  - exists s. split; [reflexivity|exact RO].
  - cbn. unfold uel_count, zlen. rewrite map_length. reflexivity.
  - match goal with |- 0 <= _ <= ?x => assert (E : x = uel_count d) end.
    { change (zlen (List.map (fun s : str => (s, -1)) (List.map fst (d_uels d))) = uel_count d). rewrite !zlen_map. reflexivity. }
    rewrite E. unfold uel_count. pose proof (zlen_nonneg (d_uels d)). lia.
  - cbn. induction (d_names d) as [|e l IH]; cbn [List.map]; constructor; [repeat split|exact IH].
Qed.

(** ** Reading records *)

(** The object is reading the records of symbol number [n], which is [sy]; the records
    [todo] have not been read yet, and after them comes the end of the data.  [sc]: the
    symbol has no record and its default is still to be read. *)
Record reading (F : list Z) (n : Z) (sy : sym) (sc : bool) (todo : list (Z * list Z * list sval)) (st : gst) : Prop := mkReading {
  rg_bo : f_bo (g_fil st) = (z_host z);
  rg_ver : f_ver (g_fil st) = GDX_VERSION;
  rg_map : d_maptext (g_dic st) = None;
  rg_univ : w_univ (g_wrk st) = false;
  rg_cur : w_cur (g_wrk st) = CSym n;
  rg_sym : exists s, get_sym (g_dic st) n = Some s /\ same_data sy s /\ sy_uinfo s = sy_uinfo sy /\ sy_scalar s = sc;
  rg_dim : w_dim (g_wrk st) = sy_dim sy;
  rg_dsize : data_size (sy_type sy) = Some (w_dsize (g_wrk st));
  rg_mms : length (w_mms (g_wrk st)) = sy_dim sy;
  rg_last : length (w_last (g_wrk st)) = sy_dim sy;
  rg_strm : exists s v rl rest, f_strm (g_fil st) = Some s /\ rdv z F (sy_comp sy) v s /\
    rd_seq (z_host z) (Z.of_nat (sy_dim sy)) (sy_dim sy) (w_dsize (g_wrk st)) (w_mms (g_wrk st)) (w_last (g_wrk st)) v todo rl (255 :: rest);
  rg_keys : Forall (fun t => length (snd (fst t)) = sy_dim sy /\ length (snd t) = w_dsize (g_wrk st)) todo
}.

Lemma cur_sym_reading : forall F n sy sc todo st, reading F n sy sc todo st ->
  exists s, cur_sym st = Done (n, s) /\ get_sym (g_dic st) n = Some s /\ same_data sy s /\ sy_uinfo s = sy_uinfo sy /\ sy_scalar s = sc.
Proof.
  intros F n sy sc todo st R. destruct (rg_sym _ _ _ _ _ _ R) as (s & G & S1 & S2 & S3). exists s. split; [|auto].
  unfold cur_sym. rewrite (rg_cur _ _ _ _ _ _ R), G. reflexivity.
Qed.

(** What changes when the values of a record are interpreted: only the acronyms and the
    next number for them. *)
Definition but_acros (a b : gst) : Prop := exists l x, b = set_g_dic (set_d_acros l (g_dic a)) (upd_env (set_e_nextacr x) a).
Lemma but_acros_refl : forall a, but_acros a a.
Proof. intros [? ? [] ? [] ? ? ?]. eexists. eexists. reflexivity. Qed.
Lemma but_acros_trans : forall a b c, but_acros a b -> but_acros b c -> but_acros a c.
Proof. intros [? ? [] ? [] ? ? ?] b c (l & x & ->) (l' & x' & ->). exists l', x'. reflexivity. Qed.
Lemma but_acros_both : forall l x a, but_acros a (upd_dic (set_d_acros l) (upd_env (set_e_nextacr x) a)).
Proof. intros l x a. exists l, x. reflexivity. Qed.
Lemma read_value_but : forall v st x st', read_value v st = Done (x, st') -> but_acros st st'.
Proof.
  intros v st x st' H. destruct v as [m|d]; cbn [read_value] in H; [injection H as <- <-; apply but_acros_refl|].
  destruct (fleb SV_ACR d); [|injection H as <- <-; apply but_acros_refl]. unfold acro_remap in H. cbv zeta in H.
  repeat match type of H with
  | Done _ = Done _ => injection H as <- <-; first [apply but_acros_refl|apply but_acros_both]
  | UB = _ => discriminate H
  | (match ?x with _ => _ end) = _ => destruct x
  end.
Qed.
Lemma read_values_but : forall vs st xs st', read_values vs st = Done (xs, st') -> but_acros st st' /\ length xs = length vs.
Proof.
  induction vs as [|v vs IH]; intros st xs st' H; cbn [read_values] in H.
  - injection H as <- <-. split; [apply but_acros_refl|reflexivity].
  - destruct (read_value v st) as [[x s1]|] eqn:E; [|discriminate]. cbn [obind] in H.
    destruct (read_values vs s1) as [[ys s2]|] eqn:E2; [|discriminate]. cbn [obind] in H. injection H as <- <-.
    destruct (IH _ _ _ E2) as [B L]. split; [eapply but_acros_trans; [eapply read_value_but; exact E|exact B]|cbn; congruence].
Qed.
Lemma reading_but : forall F n sy sc todo a b, but_acros a b -> reading F n sy sc todo a -> reading F n sy sc todo b.
Proof. intros F n sy sc todo a b (l & x & ->) []. constructor; assumption. Qed.

Lemma rd_seq_cons_inv : forall bo delta dim dsize mms rl l af ks vs rs rl' l',
  rd_seq bo delta dim dsize mms rl l ((af, ks, vs) :: rs) rl' l' ->
  exists l1, p_record bo delta dim dsize mms rl l = Done (Some (af, ks, vs), l1) /\ rd_seq bo delta dim dsize mms ks l1 rs rl' l'.
Proof. intros. inversion H; subst. eauto. Qed.

Lemma data_size_same : forall a b, same_data a b -> data_size (sy_type b) = data_size (sy_type a).
Proof. intros a b (_ & _ & E & _). rewrite E. reflexivity. Qed.

(** One more record. *)
Lemma do_read_step : forall F n sy af ks vs todo st, reading F n sy false ((af, ks, vs) :: todo) st ->
  exists st1, reading F n sy false todo st1 /\ w_last (g_wrk st1) = ks /\ g_mode st1 = g_mode st /\ g_env st1 = g_env st /\ g_dic st1 = g_dic st /\
    g_err st1 = g_err st /\ g_sli st1 = g_sli st /\ g_aft st1 = g_aft st /\
    (w_doms (g_wrk st1) = w_doms (g_wrk st) /\ w_added (g_wrk st1) = w_added (g_wrk st) /\ w_sort (g_wrk st1) = w_sort (g_wrk st) /\
     w_rd (g_wrk st1) = w_rd (g_wrk st) /\ w_prev (g_wrk st1) = w_prev (g_wrk st)) /\
    do_read z st = (do (vals, st2) <- read_values vs st1 ;; Done (Some (af, vals), st2)).
Proof.
  intros F n sy af ks vs todo st R. destruct (cur_sym_reading _ _ _ _ _ _ R) as (s0 & CS & GS & SD & SU & SS).
  destruct R as [R1 R2 R3 R4 R5 R6 R7 R8 R9 R10 (s & v & rl & rest & FS & RV & RQ) R12].
  apply rd_seq_cons_inv in RQ. destruct RQ as (l1 & PR & RQ). inversion R12 as [|? ? [K1 K2] K3]; subst. cbn [fst snd] in *.
  unfold do_read. cbv zeta. rewrite R4, CS. cbn [obind]. rewrite SS.
  rewrite R7, R10, R9, Nat.eqb_refl. cbn [andb negb].
  assert (DL : delta_for_read st = Z.of_nat (sy_dim sy)) by (unfold delta_for_read; rewrite R2, R7; reflexivity).
  rewrite DL, R1.
  match goal with |- context [s_parse_o z ?p st] => replace (s_parse_o z p st) with (s_parse_o z p (ws s (f_ops (g_fil st)) st)) by (rewrite <- (ws_self st s FS); reflexivity) end.
  match goal with |- context [s_parse_o z ?p (ws s ?o ?X)] => destruct (s_parse_o_ok z p F _ v s o X _ _ RV PR) as (s' & ops' & E & RV') end.
  rewrite E. cbn [obind].
  exists (upd_wrk (set_w_last ks) (ws s' ops' st)). split; [constructor; try assumption; cbn; try assumption|].
  - exists s', l1, rl, rest. split; [reflexivity|]. split; assumption.
  - split; [reflexivity|]. split; [reflexivity|]. split; [reflexivity|]. split; [reflexivity|]. split; [reflexivity|]. split; [reflexivity|]. split; [reflexivity|]. split; [repeat split|].
    destruct (read_values vs _) as [[vals st2]|] eqn:RVS; [|reflexivity]. cbn [obind].
    destruct (read_values_but _ _ _ _ RVS) as [(l & x & ->) _]. unfold fix_text. cbn. rewrite R3. reflexivity.
Qed.

Lemma read_keys_end : forall bo delta dim mms last rest, delta < 255 -> read_keys bo delta dim mms last (255 :: rest) = Done (REnd rest).
Proof. intros bo delta dim mms last rest H. unfold read_keys. destruct (Z.gtb_spec 255 delta); [reflexivity|lia]. Qed.

(** No more records. *)
Lemma do_read_end : forall F n sy st, reading F n sy false [] st -> (sy_dim sy <= 20)%nat ->
  exists s' ops' , rd_ok F s' /\ do_read z st = Done (None, ws s' ops' st).
Proof.
  intros F n sy st R D20. destruct (cur_sym_reading _ _ _ _ _ _ R) as (s0 & CS & GS & SD & SU & SS).
  destruct R as [R1 R2 R3 R4 R5 R6 R7 R8 R9 R10 (s & v & rl & rest & FS & RV & RQ) R12].
  inversion RQ; subst. unfold do_read. cbv zeta. rewrite R4, CS. cbn [obind]. rewrite SS.
  rewrite R7, R10, R9, Nat.eqb_refl. cbn [andb negb].
  assert (DL : delta_for_read st = Z.of_nat (sy_dim sy)) by (unfold delta_for_read; rewrite R2, R7; reflexivity).
  rewrite DL, R1.
  assert (PR : p_record (z_host z) (Z.of_nat (sy_dim sy)) (sy_dim sy) (w_dsize (g_wrk st)) (w_mms (g_wrk st)) (w_last (g_wrk st)) (255 :: rest) = Done (None, rest)).
  { unfold p_record. rewrite read_keys_end by lia. reflexivity. }
  match goal with |- context [s_parse_o z ?p st] => replace (s_parse_o z p st) with (s_parse_o z p (ws s (f_ops (g_fil st)) st)) by (rewrite <- (ws_self st s FS); reflexivity) end.
  match goal with |- context [s_parse_o z ?p (ws s ?o ?X)] => destruct (s_parse_o_ok z p F _ _ s o X _ _ RV PR) as (s' & ops' & E & RV') end.
  rewrite E. cbn [obind]. exists s', ops'. split; [eapply rdv_ok; exact RV'|reflexivity].
Qed.

(** ** Starting to read *)

Lemma tab_sym : forall F tab k st n nm sy, reads_file z F tab k st -> znth tab (n - 1) = Some (nm, sy) ->
  exists s, get_sym (g_dic st) n = Some s /\ same_data sy s /\ sy_uinfo s = sy_uinfo sy /\ 1 <= n <= sym_count (g_dic st).
Proof.
  intros F tab k st n nm sy Q T. pose proof (rf_tab _ _ _ _ _ Q) as TB. pose proof (znth_Some _ _ _ T) as RG.
  pose proof (Forall2_length _ _ _ TB) as L.
  destruct (Forall2_znth_l same_place tab (d_names (g_dic st)) (n - 1) (nm, sy) TB T) as ([nm' s] & T' & S1 & S2). exists s. split; [unfold get_sym; rewrite T'; reflexivity|].
  split; [exact S1|]. split; [exact S2|]. unfold sym_count. unfold zlen in *. lia.
Qed.

Lemma p_int_any : forall bo n r, exists v, p_int bo (enc_int bo n ++ r) = Some (v, r).
Proof.
  intros bo n r. unfold p_int, enc_int, swp. destruct (bo_i bo); eexists; reflexivity.
Qed.

Lemma upd_sym_maptext : forall n f d, d_maptext (upd_sym n f d) = d_maptext d.
Proof. intros. unfold upd_sym. destruct (znth _ _); reflexivity. Qed.
Lemma upd_sym_uels : forall n f d, d_uels (upd_sym n f d) = d_uels d.
Proof. intros. unfold upd_sym. destruct (znth _ _); reflexivity. Qed.
Definition begin_read (st : gst) : gst :=
  upd_wrk (set_w_univ false) (upd_wrk (fun w => set_w_sort None (set_w_cur CNull (set_w_added 0 w))) (upd_err (set_r_list None) st)).

Lemma resolve_plain : forall d k n s, get_sym d n = Some s -> sy_type s <> dt_alias -> resolve_alias d (S k) n = Done (Some n).
Proof. intros d k n s G T. cbn [resolve_alias]. rewrite G. destruct (Z.eqb_spec (sy_type s) dt_alias); [contradiction|reflexivity]. Qed.

(** The object when the head of the data block has been read; what is left of the work
    depends on the kind of reading. *)
Definition go_on (n : Z) (doms : list Z) (acts : list dact) (m : gmode) (s : sym) (st : gst) : outcome (Z * gst) :=
  let dim := sy_dim s in
  let ready st := upd_wrk (set_w_last (repeat (-1) dim)) st in
  if mode_in m [fr_map_data] then
    do (sorted, d) <- will_be_sorted true doms acts (g_dic st) ;;
    let st := set_g_dic d st in
    if sorted then Done (sy_count s, set_g_mode fr_mapr_data (ready st))
    else
      do (items, ok, st) <- read_all_mapped z (read_fuel z st) dim (repeat 0 dim) im_new false true [] st ;;
      do rs <- sorted_items dim items ;;
      if ok then Done (zlen items, set_g_mode fr_map_data
                         (ready (upd_wrk (fun w => set_w_sort (Some items)
                            (set_w_rd (match items with [] => None | _ => Some rs end) w)) st)))
      else Done (-1, set_g_mode fr_init (upd_wrk (set_w_sort None) (set_error ERR_OUT_OF_MEMORY st)))
  else Done (sy_count s, set_g_mode m (ready st)).

(** The object [st'] after the head of a block has been read, compared to [st]. *)
Record started (n : Z) (acts : list dact) (st st' : gst) : Prop := mkStarted {
  sd_mode : g_mode st' = g_mode st;
  sd_aft : g_aft st' = g_aft st;
  sd_env : g_env st' = g_env st;
  sd_dic : exists b, g_dic st' = upd_sym n (set_sy_scalar b) (g_dic st);
  sd_err : g_err st' = set_r_list None (g_err st);
  sd_sli : g_sli st' = g_sli st;
  sd_doms : w_doms (g_wrk st') = acts;
  sd_added : w_added (g_wrk st') = 0;
  sd_sort : w_sort (g_wrk st') = None;
  sd_rd : w_rd (g_wrk st') = w_rd (g_wrk st);
  sd_prev : forall dim, w_dim (g_wrk st') = dim -> firstn dim (w_prev (g_wrk st')) = repeat (-1) dim \/ dim = O;
  sd_last : length (w_last (g_wrk st')) = w_dim (g_wrk st')
}.

Lemma prepare_head : forall F tab k st n nm sy recs doms acts m, reads_file z F tab k st -> g_mode st = fr_init ->
  znth tab (n - 1) = Some (nm, sy) -> sy_type sy <> dt_alias -> (sy_dim sy <= 20)%nat -> block_at z (z_host z) F sy recs ->
  (sy_dim sy <= length doms)%nat -> domain_actions (d_filts (g_dic st)) (firstn (sy_dim sy) doms) = Some acts ->
  if Nat.eqb (sy_dim sy) 0 && (zlen recs =? 0) then
    exists st', prepare_symbol_read z n doms m st = Done (1, set_g_mode m st') /\ started n acts st st' /\ reading F n sy true [] st'
  else
    exists st' s, prepare_symbol_read z n doms m st = go_on n (firstn (sy_dim sy) doms) acts m s st' /\ same_data sy s /\ started n acts st st' /\
      forall l, length l = sy_dim sy -> reading F n sy false (with_first (repeat INDEX_INITIAL (sy_dim sy)) recs) (upd_wrk (set_w_last l) st').
Proof.
  intros F tab k st n nm sy recs doms acts m Q MO T TY D20 BL DL DA.
  destruct (tab_sym _ _ _ _ _ _ _ Q T) as (s0 & GS & SD & SU & NR).
  destruct BL as (dsize & mms & cnt & bs & last & B1 & B2 & B3 & B4 & B5 & B6 & B7).
  destruct Q as [Q1 (s & FS & RO) Q3 Q4 Q5 Q6 Q7 Q8 QU Q9].
  pose proof SD as (E1 & E2 & E3 & E4 & E5).
  unfold prepare_symbol_read. rewrite MO.
  change (mode_in fr_init [fr_str_data; fr_map_data; fr_mapr_data; fr_raw_data]) with false. cbv iota. cbn [obind].
  change (g_mode (upd_wrk _ _)) with (g_mode st). rewrite MO. change (mode_in fr_init [fr_init]) with true. cbn [negb]. cbv iota zeta.
  destruct (Z.eqb_spec n 0) as [X|_]; [lia|]. cbn [negb andb].
  fold (begin_read st).
  change (d_nn (g_dic (begin_read st))) with (d_nn (g_dic st)). rewrite Q6. cbn [negb].
  change (sym_count (g_dic (begin_read st))) with (sym_count (g_dic st)).
  replace ((1 <=? n) && (n <=? sym_count (g_dic st))) with true by lia. cbn [negb].
  change (g_dic (begin_read st)) with (g_dic st).
  rewrite (resolve_plain _ _ _ _ GS) by congruence. cbn [obind]. rewrite GS.
  rewrite <- E3, B1. cbn [obind]. rewrite <- E2, <- E5, <- E1.
  set (X := upd_wrk (fun w => set_w_cur (CSym n) (set_w_dim (sy_dim sy) (set_w_dsize dsize w))) (begin_read st)).
  assert (FX : f_strm (g_fil X) = Some s) by exact FS.
  rewrite (ws_self X s FX).
  pose proof (phys_at_nonneg _ _ _ B7) as PN.
  seek (sy_comp sy) PN.
  destruct (phys_at_read z _ F _ _ B7) as [rest ER].
  { apply bytes_app; [apply enc_blockhead_ok|]. apply bytes_app.
    - destruct (wr_recs_read (z_host z) (sy_dim sy) mms dsize recs bs last (repeat 0 (length mms)) (repeat_length _ _) D20 B2 B3 B4 B5) as (_ & X1 & _). exact X1.
    - repeat constructor; unfold byte_ok; lia. }
  rewrite ER in *.
  destruct (Nat.ltb_spec (length doms) (sy_dim sy)) as [Y|_]; [lia|].
  change (d_filts (g_dic (ws s1 ops X))) with (d_filts (g_dic st)). rewrite DA.
  change (upd_wrk (set_w_doms acts) (ws s1 ops X)) with (ws s1 ops (upd_wrk (set_w_doms acts) X)).
  change (f_bo (g_fil (ws s1 ops (upd_wrk (set_w_doms acts) X)))) with (f_bo (g_fil st)). rewrite Q3.
  unfold enc_blockhead in *. rewrite <- !app_assoc in *.
  psteps ltac:(apply p_str_enc). rewrite str_eqb_refl. cbn [negb].
  match goal with R : rdv _ _ _ (enc_byte ?b ++ ?r) _ |- _ => assert (EB : p_byte (enc_byte b ++ r) = Some (b, r))
    by (unfold enc_byte; rewrite Z.mod_small by lia; reflexivity) end.
  psteps ltac:(exact EB). rewrite Z.eqb_refl. cbn [negb].
  match goal with R : rdv _ _ _ (enc_int ?bo ?b ++ ?r) _ |- _ => destruct (p_int_any bo b r) as [pv EI] end.
  psteps ltac:(exact EI).
  rewrite <- E4, <- B6.
  destruct (Nat.eqb (sy_dim sy) 0 && (zlen recs =? 0)) eqn:SC.
  - apply Bool.andb_true_iff in SC. destruct SC as [SC1 SC2]. apply Nat.eqb_eq in SC1. apply Z.eqb_eq in SC2.
    eexists. split; [reflexivity|]. split.
    + constructor; try reflexivity; [exists true; reflexivity|intros dim <-; right; exact SC1|cbn; congruence].
    + destruct recs; [|unfold zlen in SC2; cbn in SC2; lia]. destruct mms; [|cbn in B2; congruence]. inversion B4; subst; [|destruct recs; discriminate].
      constructor; cbn; try assumption; try reflexivity; try congruence; try lia.
      * rewrite upd_sym_maptext. exact Q5.
      * exists (set_sy_scalar true s0). split; [apply get_sym_upd_eq; exact GS|]. split; [|split; [exact SU|reflexivity]]. exact SD.
      * do 4 eexists. split; [reflexivity|]. split; [eassumption|]. constructor.
      * constructor.
  - match goal with |- context [s_parse z _ (upd_wrk ?f (upd_dic ?g (ws ?s ?o ?X)))] =>
      change (upd_wrk f (upd_dic g (ws s o X))) with (ws s o (upd_wrk f (upd_dic g X))) end.
    assert (PM : prepeat (sy_dim sy) (p_mm (z_host z)) (List.concat (List.map (enc_mm (z_host z)) mms) ++ bs ++ [255] ++ rest) = Some (mms, bs ++ [255] ++ rest)).
    { rewrite <- B2. apply p_mms_enc. eapply Forall_impl; [|exact B3]. intros [a b] [H1 H2]. cbn in *. unfold int_ok, INT_MIN, INT_MAX in *. lia. }
    psteps ltac:(exact PM).
    eexists _, s0. split.
    { unfold go_on. rewrite <- E2, <- E4, <- B6. reflexivity. }
    split; [exact SD|]. split.
    + constructor; try reflexivity; [exists false; reflexivity| |cbn; rewrite repeat_length; reflexivity]. intros dim <-. left. cbn.
      rewrite firstn_app, repeat_length, Nat.sub_diag. cbn [firstn]. rewrite app_nil_r, firstn_all2; [reflexivity|rewrite repeat_length; lia].
    + intros l Ll.
      destruct (wr_recs_read (z_host z) (sy_dim sy) mms dsize recs bs last l ltac:(congruence) D20 B2 B3 B4 B5) as (_ & _ & RD).
      constructor; cbn; try assumption; try reflexivity; try congruence.
      * rewrite upd_sym_maptext. exact Q5.
      * exists (set_sy_scalar false s0). split; [apply get_sym_upd_eq; exact GS|]. split; [|split; [exact SU|reflexivity]]. exact SD.
      * eexists _, _, _, rest. split; [reflexivity|]. split; [eassumption|]. apply RD.
      * clear - B5 B2. generalize (repeat INDEX_INITIAL (sy_dim sy)) as pv. induction B5 as [|[ks vs] r [H1 [H2 _]] F IH]; intros pv; cbn [with_first]; constructor.
        -- cbn. split; [|exact H2]. cbn in H1. apply Forall2_length in H1. congruence.
        -- apply IH.
Qed.
End Z.
