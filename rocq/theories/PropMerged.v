(** * C59: the file that gdxmerge leaves *)

From Coq Require Import String Permutation Sorted.
From Verif Require Import Base Prim Values Records LinkedData StrHash IntMap Strings AStream BufStream State
  FileImage ApiCore ApiFile ApiWrite ApiRead Api FileFacts BlockFacts StreamFacts OpenFacts DicInv WriteInv WriteSteps Journal WriteCalls WriteTrace
  Footprint SessInv FileFlow Sessions Vocab PropErr Reopen ReadFacts ReadRecs ReadLoops Cases PropNames PropMeta Segment PropStruct PropTexts
  LabelFacts Buffered Contents MapFacts Domains Wrote PropRead PropChecks PropLabels PropCrash PropProper Merge PropMerge.
Open Scope Z_scope.
Open Scope list_scope.

(** ** Specification *)

(** How the value of a record is kept in the file opened by [st]: a text of an element by
    the number of a text that is the same but for characters that cannot be stored; other
    values as they are. *)
Definition value_kept (z : zlib) (st : gst) (typ : Z) (hr : mfile * mrec) (v : list Z) : Prop :=
  (exists t n u, with_text typ (fst hr) (snd hr) t /\ t <> [] /\ v = [fofZ n] /\ elem_text z st n u /\ cleaned (firstn 255 t) u) \/
  (with_text typ (fst hr) (snd hr) [] /\ v = [0]) \/
  (without_text typ (snd hr) /\ v = firstn (values_per typ) (m_vals (snd hr))).
(** The record [kv] of the output is the record of the input file [fst hr]: its first index
    stands for the name of the file, the others for the labels. *)
Definition record_kept (z : zlib) (st : gst) (typ : Z) (hr : mfile * mrec) (kv : list Z * list Z) : Prop :=
  Forall2 (stands z st) (h_id (fst hr) :: m_labels (snd hr)) (fst kv) /\ value_kept z st typ hr (snd kv).
(** What holds for every symbol of a GDX file. *)
Definition regular (y : msym) : Prop := wf_ident (y_name y) /\ 0 <= y_typ y <= dt_alias.
(** The output is closed and opened again, by [st2]; arguments are well-formed, tables and
    file are not larger than the format allows. *)
Definition output_read (z : zlib) (out : str) (compr : Z) (g : gst) (q : mst) (st2 : gst) : Prop :=
  exists r0 L rc st F rd rm,
    q_log q = (gdxOpenWriteEx out (s2z "gdxmerge") compr, r0) :: L ++ [(gdxClose, rc)] /\
    did z g ((gdxOpenWriteEx out (s2z "gdxmerge") compr, r0) :: L) st /\ Forall call_ok (List.map fst L) /\ counters_fit (g_dic st) /\
    disk_get (e_disk (g_env (q_g q))) out = Some F /\ zlen F < 2^63 /\
    closed rd /\ disk_get (e_disk (g_env rd)) out = Some F /\ Z.rem rm 2 = 0 /\ exec z (gdxOpenReadEx out rm) rd = Done (ret_i 1 [0], st2).

(** The symbol number [n] of the file opened by [st2] is [y] with one more dimension, and was
    written with all the records for it. *)
Definition merged (z : zlib) (src : list (mfile * msym)) (st2 : gst) (n : Z) (y : msym) : Prop :=
  symbol z st2 n (y_name y) (y_dim y + 1) (typ_of y) /\
  exists sorted recs, Permutation (records_for src y) sorted /\ Forall2 (record_kept z st2 (typ_of y)) sorted recs /\
    wrote_raw z st2 n (y_dim y + 1) (typ_of y) standard_values recs.

(** The record [kv] of the set of the input files: the index stands for the name of the
    file, the value is the number of a text that describes it. *)
Definition file_listed (z : zlib) (st : gst) (h : mfile) (kv : list Z * list Z) : Prop :=
  exists k n u, kv = ([k], [fofZ n]) /\ stands z st (h_id h) k /\ elem_text z st n u /\ cleaned (firstn 255 (h_info h)) u.
(** The symbol number [n] of the file opened by [st2] is the set of the input files. *)
Definition listed (z : zlib) (files : list mfile) (st2 : gst) (n : Z) : Prop :=
  exists k, 1 <= k /\ symbol z st2 n (set_name k) 1 dt_set /\
  exists sorted recs, Permutation files sorted /\ Forall2 (file_listed z st2) sorted recs /\ wrote z st2 n 1 dt_set standard_values recs.

(** ** Calls of the tool *)

Definition merge_call (c : call) : bool :=
  match c with
  | gdxStoreDomainSetsSet _ | gdxUELRegisterStrStart | gdxUELRegisterStr _ | gdxUELRegisterDone | gdxFindSymbol _
  | gdxDataWriteRawStart _ _ _ _ _ | gdxDataWriteStrStart _ _ _ _ _ | gdxDataWriteRaw _ _ | gdxDataWriteStr _ _ | gdxAddSetText _ | gdxDataWriteDone => true
  | _ => false
  end.
Lemma merge_keeps : forall c, merge_call c = true -> keeps_writing c = true /\ sets_values c = false /\ renames c = false.
Proof. intros c H. destruct c; try discriminate H; repeat split. Qed.
Lemma merge_all : forall cs, Forall (fun c => merge_call c = true) cs -> Forall call_ok cs -> Forall (fun c => keeps_writing c = true /\ call_ok c) cs.
Proof. intros cs A B. rewrite Forall_forall in *. intros c I. split; [apply merge_keeps; auto|auto]. Qed.
Lemma merge_rename : forall cs, Forall (fun c => merge_call c = true) cs -> no_rename cs.
Proof. intros cs A. eapply Forall_impl; [|exact A]. intros c M. apply merge_keeps. exact M. Qed.

Lemma line_calls : forall typ h r k l, line typ h r k l -> Forall record_call (List.map fst l).
Proof. intros typ h r k l H. destruct H; cbn [List.map fst]; repeat constructor. Qed.
Lemma lines_calls : forall typ (hks : list ((mfile * mrec) * list Z)) lines, Forall2 (fun hk => line typ (fst (fst hk)) (snd (fst hk)) (snd hk)) hks lines -> Forall record_call (List.map fst (concat lines)).
Proof.
  intros typ hks lines F. induction F as [|hk l hks lines X F IH]; [constructor|]. cbn [concat]. rewrite map_app. apply Forall_app. split; [eapply line_calls; exact X|exact IH].
Qed.
Lemma record_merge : forall c, record_call c -> merge_call c = true.
Proof. intros c H. destruct c; try destruct H; reflexivity. Qed.
Lemma written_calls : forall b z g y text recs lg, written_in b z g y text recs lg -> Forall (fun c => merge_call c = true) (List.map fst lg).
Proof.
  intros b z g y text recs lg (x & x' & sorted & keys & lines & _ & _ & _ & F & ->). cbn [List.map fst]. constructor; [reflexivity|]. rewrite map_app. apply Forall_app. split; [|repeat constructor].
  eapply Forall_impl; [|eapply lines_calls; exact F]. apply record_merge.
Qed.
Lemma names_calls : forall files lg, names_written files lg -> Forall (fun c => merge_call c = true) (List.map fst lg).
Proof. intros files lg H. induction H; cbn [List.map fst]; repeat constructor; exact IHnames_written. Qed.

(** ** States between symbols *)

Section Z.
Context (z : zlib).

Lemma jinv_idle : forall h b J st, jinv z h b J st -> g_mode st = fw_init -> j_phase J = JIdle.
Proof.
  intros h b J st JI M. destruct JI as [(t & G & [CO PH] & R)|(_ & D & _)]; [|exfalso; rewrite M in D; unfold data_modes in D; cbn in D; intuition discriminate].
  pose proof (jr_phase _ _ _ R) as Q. unfold WriteInv.phase in PH. destruct (j_phase J) as [| |n d ds mms recs ok|n|]; [reflexivity| | | |].
  - destruct Q as [_ Q]. rewrite M in Q. cbn in Q. intuition discriminate.
  - destruct Q as (Q & _). rewrite Q in PH. destruct PH as [[X _] _]. rewrite M in X. cbn in X. intuition discriminate.
  - destruct Q as (i & Q). rewrite Q in PH. destruct PH as [[X _ _ _ _ _ _] _]. rewrite M in X. cbn in X. intuition discriminate.
  - destruct Q.
Qed.
Lemma idle_mode : forall h b J st, jinv z h b J st -> j_phase J = JIdle -> g_mode st = fw_init.
Proof.
  intros h b J st JI P. destruct JI as [(t & G & _ & R)|(L & _)]; [|congruence]. pose proof (jr_phase _ _ _ R) as Q. rewrite P in Q. apply Q.
Qed.

(** Whether its calls are accepted or not, after a symbol the object is ready for the next. *)
Definition filling (c : call) : bool := match c with gdxDataWriteRaw _ _ | gdxDataWriteStr _ _ | gdxAddSetText _ => true | _ => false end.
Definition opens (c : call) : bool := match c with gdxDataWriteRawStart _ _ _ _ _ | gdxDataWriteStrStart _ _ _ _ _ => true | _ => false end.
Definition in_symbol (J : journal) : Prop := j_phase J = JIdle \/ in_raw J \/ exists n, j_phase J = JBuf n.
Lemma filling_step : forall c r J, filling c = true -> in_symbol J -> in_symbol (jstep c r J).
Proof.
  intros c r J F S0. unfold in_symbol, in_raw, jstep in *. destruct S0 as [P|[(n & d & ds & mms & recs & ok & P)|(n & P)]]; rewrite P; destruct c; try discriminate F; rewrite ?P; eauto 12; destruct (r_code r =? 1); cbn [j_phase]; eauto 12.
Qed.
Lemma filling_run : forall cs rs J, Forall (fun c => filling c = true) cs -> in_symbol J -> in_symbol (jrun cs rs J).
Proof. induction cs as [|c cs IH]; intros [|r rs] J F S0; cbn [jrun]; try exact S0. inversion_clear F. apply IH; [assumption|]. apply filling_step; assumption. Qed.
Lemma open_step : forall c r J, opens c = true -> j_phase J = JIdle -> in_symbol (jstep c r J).
Proof.
  intros c r J O P. unfold in_symbol, in_raw, jstep, j_start. rewrite P. destruct c; try discriminate O; destruct (r_code r =? 1); cbn [j_phase]; rewrite ?P; unfold j_raw; eauto 12.
Qed.
Lemma done_step : forall r J, in_symbol J -> j_phase (jstep gdxDataWriteDone r J) = JIdle.
Proof. intros r J S0. unfold in_symbol, in_raw, jstep in *. destruct S0 as [P|[(n & d & ds & mms & recs & ok & P)|(n & P)]]; rewrite P, ?P; try exact P; reflexivity. Qed.
Lemma symbol_ready : forall h b J c body rs st st', jinv z h b J st -> g_mode st = fw_init -> opens c = true -> Forall (fun c => filling c = true) body ->
  Forall (fun c => keeps_writing c = true /\ call_ok c) (c :: body ++ [gdxDataWriteDone]) -> run z (c :: body ++ [gdxDataWriteDone]) st = Done (rs, st') -> g_mode st' = fw_init /\ exists J', jinv z h b J' st'.
Proof.
  intros h b J c body rs st st' JI M O F K R. pose proof (jinv_idle _ _ _ _ JI M) as P. pose proof (jinv_run z _ _ _ _ _ _ _ JI K R) as JQ.
  destruct (run_cons z _ _ _ _ _ R) as (r & s1 & rs' & _ & R' & ->). destruct (run_split z _ _ _ _ _ R') as (ra & sm & rb & Y1 & Y2 & ->). destruct (run_cons z _ _ _ _ _ Y2) as (rd & s2 & rn & _ & Y3 & ->). injection Y3 as <- _.
  pose proof (run_length z _ _ _ _ Y1) as LA.
  assert (X : forall cs rs cs2 rs2 J, length rs = length cs -> jrun (cs ++ cs2) (rs ++ rs2) J = jrun cs2 rs2 (jrun cs rs J)).
  { clear. induction cs as [|c cs IH]; intros [|r rs] cs2 rs2 J L; try discriminate L; [reflexivity|]. cbn [app jrun]. apply IH. injection L as L. exact L. }
  split; [|eauto]. eapply idle_mode; [exact JQ|]. cbn [jrun]. rewrite X by exact LA. cbn [jrun]. apply done_step. apply filling_run; [exact F|]. apply open_step; assumption.
Qed.

(** ** The lines of a symbol *)

Lemma did_split : forall a l m b, did z a (l ++ m) b -> exists s, did z a l s /\ did z s m b.
Proof.
  intros a l m b H. unfold did in *. rewrite map_app in H. destruct (run_split z _ _ _ _ _ H) as (ra & sm & rb & Y1 & Y2 & E). rewrite map_app in E. pose proof (run_length z _ _ _ _ Y1) as LA. rewrite map_length in LA.
  assert (X : forall (p q r s : list resp), length p = length r -> p ++ q = r ++ s -> p = r /\ q = s).
  { clear. induction p as [|x p IH]; intros q [|y r] s L H; try discriminate L; [auto|]. injection L as L. injection H as -> H. destruct (IH _ _ _ L H) as (-> & ->). auto. }
  assert (LEN : length (List.map snd l) = length ra) by (rewrite map_length; symmetry; exact LA). destruct (X _ _ _ _ LEN E) as (E1 & E2). exists sm. rewrite E1, E2. auto.
Qed.
Lemma did_cons : forall a c r m b, did z a ((c, r) :: m) b -> exists s, exec z c a = Done (r, s) /\ did z s m b.
Proof.
  intros a c r m b H. unfold did in *. cbn [List.map fst snd] in H. destruct (run_cons z _ _ _ _ _ H) as (r' & s1 & rs' & E & R & EQ). injection EQ as <- <-. eauto.
Qed.
Lemma did_during : forall a l b, did z a l b -> Forall (fun c => merge_call c = true) (List.map fst l) -> Forall call_ok (List.map fst l) -> during z (List.map fst l) a b.
Proof. intros a l b D M C. eapply keeps_during; [apply merge_all; assumption|exact D]. Qed.

Lemma kept_stays : forall cs a b typ hr v, during z cs a b -> value_kept z a typ hr v -> value_kept z b typ hr v.
Proof.
  intros cs a b typ hr v D [(t & n & u & A1 & A2 & A3 & A4 & A5)|[H|H]]; [left|right; left; exact H|right; right; exact H].
  exists t, n, u. split; [exact A1|]. split; [exact A2|]. split; [exact A3|]. split; [eapply C33_texts_stay; [exact D|exact A4]|exact A5].
Qed.
Lemma size_same : forall typ, Merge.data_size typ = values_per typ.
Proof. intros typ. reflexivity. Qed.

Lemma lines_ok : forall typ sorted keys lines, Forall2 (fun hk => line typ (fst (fst hk)) (snd (fst hk)) (snd hk)) (combine sorted keys) lines -> length sorted = length keys ->
  forall cs s s', in_writing z cs s -> Forall call_ok (List.map fst (concat lines)) -> did z s (concat lines) s' ->
  exists vals, Forall2 (value_kept z s' typ) sorted vals /\ handed_raw (List.map fst (concat lines)) = combine keys vals.
Proof.
  intros typ. induction sorted as [|hr sorted IH]; intros [|k keys] lines F L cs s s' W CO D; try discriminate L.
  - cbn [combine] in F. inversion F; subst. exists []. split; [constructor|reflexivity].
  - cbn [combine] in F. inversion F as [|? l1 ? lines' LN F' E1 E2]; subst. cbn [fst snd] in LN. injection L as L. cbn [concat] in D, CO |- *. rewrite map_app in CO |- *. apply Forall_app in CO. destruct CO as [CO1 CO2].
    destruct (did_split _ _ _ _ D) as (sm & D1 & D2).
    assert (MC1 : Forall (fun c => merge_call c = true) (List.map fst l1)) by (eapply Forall_impl; [apply record_merge|eapply line_calls; exact LN]).
    assert (MC2 : Forall (fun c => merge_call c = true) (List.map fst (concat lines'))) by (eapply Forall_impl; [apply record_merge|eapply lines_calls; exact F']).
    assert (W2 : in_writing z (cs ++ List.map fst l1) sm).
    { destruct W as (sta & ST & DU). exists sta. split; [exact ST|]. eapply during_trans; [exact DU|]. apply did_during; assumption. }
    destruct (IH keys lines' F' L _ _ _ W2 CO2 D2) as (vals & V1 & V2).
    pose proof (did_during _ _ _ D2 MC2 CO2) as DU2. rewrite handed_app, V2.
    assert (X : exists v, value_kept z s' typ hr v /\ handed_raw (List.map fst l1) = [(k, v)]).
    { destruct hr as [h r]. cbn [fst snd] in LN. destruct LN as [t a b WT NE|b WT|b WO]; cbn [List.map fst handed_raw].
      - destruct (did_cons _ _ _ _ _ D1) as (s1 & X1 & D3). destruct (C33_adding_a_text _ _ _ _ _ _ W X1) as (n & u & -> & ET & CL). cbn [r_ints ret_i hd].
        exists [fofZ n]. split; [|reflexivity]. left. exists t, n, u. split; [exact WT|]. split; [exact NE|]. split; [reflexivity|]. split; [|exact CL].
        eapply C33_texts_stay; [exact DU2|]. eapply C33_texts_stay; [|exact ET]. cbn [List.map fst] in MC1, CO1. inversion_clear MC1. inversion_clear CO1. apply (did_during _ _ _ D3); assumption.
      - exists [0]. split; [|reflexivity]. right. left. auto.
      - eexists. split; [|reflexivity]. right. right. split; [exact WO|]. rewrite size_same. reflexivity. }
    destruct X as (v & X1 & X2). exists (v :: vals). split; [constructor; assumption|]. rewrite X2. reflexivity.
Qed.

(** ** The symbols, one after another *)

Lemma segs_ready : forall b0 g1 text recs h b hs segs, Forall2 (fun y lg => written_in b0 z g1 y (text y) (recs y) lg) hs segs -> forall J st st', jinv z h b J st -> g_mode st = fw_init ->
  Forall call_ok (List.map fst (concat segs)) -> did z st (concat segs) st' -> g_mode st' = fw_init /\ exists J', jinv z h b J' st'.
Proof.
  intros b0 g1 text recs h b hs segs F. induction F as [|y lg hs segs X F IH]; intros J st st' JI M CO D; cbn [concat] in *.
  - injection D as <-. eauto.
  - destruct (did_split _ _ _ _ D) as (s & D1 & D2). rewrite map_app in CO. apply Forall_app in CO. destruct CO as [CO1 CO2].
    pose proof (merge_all _ (written_calls _ _ _ _ _ _ _ X) CO1) as K. destruct X as (a & e & sorted & keys & lines & _ & _ & _ & LN & ->). unfold did in D1. cbn [List.map fst snd] in D1, K. rewrite map_app in D1, K. cbn [List.map fst snd] in D1, K.
    assert (FL : Forall (fun c => filling c = true) (List.map fst (concat lines))).
    { eapply Forall_impl; [|eapply lines_calls; exact LN]. intros c RC. destruct c; try destruct RC; reflexivity. }
    destruct (symbol_ready _ _ _ (gdxDataWriteRawStart (y_name y) (text y) (y_dim y + 1) (typ_of y) (sub_of y)) _ _ _ _ JI M eq_refl FL K D1) as (M2 & J2 & JI2).
    eapply IH; [exact JI2|exact M2|exact CO2|exact D2].
Qed.

Lemma stands_kept : forall out prod compr ALL rALL st st2 cs1 g1 ms s k, reopened z out prod compr ALL rALL st st2 -> working z cs1 g1 -> during z ms g1 st -> no_rename ms ->
  stands z g1 s k -> 0 <= k <= INT_MAX /\ stands z st2 s k.
Proof.
  intros out prod compr ALL rALL st st2 cs1 g1 ms s k RO W D NR (t & L & U). pose proof (C11_labels_stay _ _ _ _ _ _ _ W D NR L) as L2. split.
  - apply label_iff in L2. unfold uel_text in L2. destruct (znth _ _) as [e|] eqn:E; [|discriminate L2]. apply znth_Some in E. destruct RO as (_ & _ & r & st1 & F & rd & rm & _ & _ & (_ & UC & _) & _). unfold uel_count in UC. lia.
  - exists t. split; [|exact U]. apply (proj1 (C20_labels_are_found_again _ _ _ _ _ _ _ _ RO)). exact L2.
Qed.
Lemma inside_all : forall n ks, Forall (fun k => 0 <= k <= INT_MAX) ks -> length ks = n -> inside (repeat (0, INT_MAX) n) ks = true.
Proof.
  induction n as [|n IH]; intros [|k ks] F L; try discriminate L; [reflexivity|]. inversion_clear F as [|? ? K F']. injection L as L. cbn [repeat inside fst snd]. rewrite (IH _ F' L), !andb_true_iff. lia.
Qed.
Lemma bounds_all : forall n, bounds_okb (repeat (0, INT_MAX) n) = true.
Proof. induction n as [|n IH]; [reflexivity|]. cbn [repeat bounds_okb forallb]. unfold bounds_okb in IH. rewrite IH. reflexivity. Qed.
Lemma kept_size : forall st typ hr v, value_kept z st typ hr v -> firstn (values_per typ) v = v.
Proof.
  intros st typ hr v [(t & n & u & (-> & _) & _ & -> & _)|[((-> & _) & ->)|(_ & ->)]]; [reflexivity|reflexivity|]. rewrite firstn_firstn, Nat.min_id. reflexivity.
Qed.
Lemma records_cut : forall st typ dim sorted keys vals, Forall2 (value_kept z st typ) sorted vals -> Forall (fun k => length k = Z.to_nat dim) keys -> length sorted = length keys ->
  List.map (cut dim typ) (combine keys vals) = combine keys vals /\ List.map fst (combine keys vals) = keys.
Proof.
  intros st typ dim sorted keys vals F. revert keys. induction F as [|hr v sorted vals X F IH]; intros [|k keys] K L; try discriminate L; [split; reflexivity|].
  inversion_clear K as [|? ? K1 K2]. injection L as L. destruct (IH keys K2 L) as (A & B). cbn [combine List.map fst]. rewrite A, B. unfold cut. cbn [fst snd]. rewrite (kept_size _ _ _ _ X), <- K1, firstn_all. split; reflexivity.
Qed.
Lemma records_kept : forall st typ sorted keys vals, Forall2 (fun hr k => Forall2 (stands z st) (h_id (fst hr) :: m_labels (snd hr)) k) sorted keys -> Forall2 (value_kept z st typ) sorted vals ->
  Forall2 (record_kept z st typ) sorted (combine keys vals).
Proof.
  intros st typ sorted keys vals F. revert vals. induction F as [|hr k sorted keys X F IH]; intros vals V; inversion V as [|? v ? vals' V1 V2 E1 E2]; subst; cbn [combine]; constructor; [split; [exact X|exact V1]|]. apply IH. exact V2.
Qed.
Lemma plain_acronyms : forall cs a b, during z cs a b -> Forall (fun c => merge_call c = true) cs -> Forall (fun x => ac_name x = []) (d_acros (g_dic a)) -> Forall (fun x => ac_name x = []) (d_acros (g_dic b)).
Proof.
  intros cs a b D M. eapply (during_dic z (fun d => Forall (fun x => ac_name x = []) (d_acros d))); [|exact D]. intros c d d' I A Q. rewrite Forall_forall in M. specialize (M c I).
  assert (US : forall n f, d_acros (upd_sym n f d) = d_acros d) by (intros n f; unfold upd_sym; destruct (znth _ _); reflexivity).
  assert (UA : forall s, d_acros (snd (uel_add s d)) = d_acros d) by (intros s; unfold uel_add; destruct (sl_add _ _ _ _); reflexivity).
  assert (MS : d_acros (snd (map_status d)) = d_acros d) by (unfold map_status; destruct (d_status d); reflexivity).
  destruct A; try exact Q; try (subst c; discriminate M); rewrite ?US, ?UA, ?MS; try exact Q; cbn [d_acros set_d_acros].
  - unfold check_entry. destruct (_ <? 0); [|exact Q]. apply Forall_app. split; [exact Q|repeat constructor].
  - apply Forall_app. split; [exact Q|repeat constructor].
  - apply zset_Forall; [exact Q|]. cbn. rewrite Forall_forall in Q. apply Q. eapply znth_In. exact H.
Qed.
Lemma same_specials : forall cs a b l, during z cs a b -> Forall (fun c => merge_call c = true) cs -> special_values z a l -> special_values z b l.
Proof.
  intros cs a b l D M S0. apply special_iff. apply special_iff in S0. revert S0. eapply (during_state z (fun st => firstn 5 (e_tab (g_env st)) = l)); [|intros x Q; exact Q|exact D].
  intros c x y I Q A. rewrite Forall_forall in M. destruct (merge_keeps _ (M c I)) as (_ & SV & _). destruct A; try exact Q.
  - destruct H as (_ & [X|(X & _)] & _); [congruence|]. cbn [g_env upd_env upd set_g_env]. rewrite X. exact Q.
  - unfold set_error. destruct (n =? 0); exact Q.
Qed.

Lemma kept_again : forall out prod compr ALL rALL st st2 typ hr v, reopened z out prod compr ALL rALL st st2 -> value_kept z st typ hr v -> value_kept z st2 typ hr v.
Proof.
  intros out prod compr ALL rALL st st2 typ hr v RO [(t & n & u & A1 & A2 & A3 & A4 & A5)|[H|H]]; [left|right; left; exact H|right; right; exact H].
  exists t, n, u. split; [exact A1|]. split; [exact A2|]. split; [exact A3|]. split; [|exact A5]. apply (proj1 (C20_texts_are_found_again _ _ _ _ _ _ _ _ _ _ RO)). exact A4.
Qed.
Lemma free_name : forall hs1 y hs2 sp, NoDup (List.map hname (hs1 ++ y :: hs2)) -> symbols z sp (zlen hs1) ->
  (forall i x, nth_error hs1 i = Some x -> exists d t, symbol z sp (Z.of_nat i + 1) (y_name x) d t) -> forall n nm d t, symbol z sp n nm d t -> upper nm <> upper (y_name y).
Proof.
  intros hs1 y hs2 sp ND SY NM n nm d t X E. apply symbols_iff in SY. unfold sym_count in SY. apply symbol_iff in X. destruct X as (s & X & _).
  pose proof (znth_Some _ _ _ X) as B. rewrite <- SY in B. unfold zlen in B.
  destruct (nth_error hs1 (Z.to_nat (n - 1))) as [x|] eqn:N; [|apply nth_error_None in N; lia]. destruct (NM _ _ N) as (d' & t' & Y). apply symbol_iff in Y. destruct Y as (s' & Y & _).
  replace (Z.of_nat (Z.to_nat (n - 1)) + 1 - 1) with (n - 1) in Y by lia. rewrite X in Y. injection Y as -> _. rewrite map_app in ND. cbn [List.map] in ND. apply NoDup_remove_2 in ND. apply ND. apply in_or_app. left.
  unfold hname at 1. rewrite <- E. apply (in_map hname). eapply nth_error_In. exact N.
Qed.

Lemma segs_ok : forall out prod compr src g1 cs1 ALL rALL st st2, reopened z out prod compr ALL rALL st st2 -> working z cs1 g1 -> forall post,
  Forall (fun c => merge_call c = true) (List.map fst post) -> Forall call_ok (List.map fst post) ->
  forall hs2 segs2 hs1 L1 sp s3 ms,
  Forall2 (fun y lg => written_in lex_lt z g1 y (text_for src y) (records_for src y) lg) hs2 segs2 ->
  ALL = List.map fst (L1 ++ concat segs2 ++ post) -> rALL = List.map snd (L1 ++ concat segs2 ++ post) ->
  writes z out prod compr (List.map fst L1) (List.map snd L1) sp -> did z sp (concat segs2) s3 -> did z s3 post st ->
  Forall call_ok (List.map fst (concat segs2)) -> during z ms g1 sp -> no_rename ms ->
  ready sp -> symbols z sp (zlen hs1) -> (forall i y, nth_error hs1 i = Some y -> exists d t, symbol z sp (Z.of_nat i + 1) (y_name y) d t) ->
  Forall (fun a => ac_name a = []) (d_acros (g_dic sp)) -> special_values z sp standard_values ->
  NoDup (List.map hname (hs1 ++ hs2)) -> Forall (fun y => regular y /\ 0 <= y_dim y < 20 /\ Forall (fun hr => zlen (m_labels (snd hr)) = y_dim y) (records_for src y)) hs2 ->
  (forall i y, nth_error hs2 i = Some y -> merged z src st2 (zlen hs1 + Z.of_nat i + 1) y) /\ ready s3 /\ symbols z s3 (zlen hs1 + zlen hs2).
Proof.
  intros out prod compr src g1 cs1 ALL rALL st st2 RO WK post PM PC. induction hs2 as [|y hs2 IH]; intros segs2 hs1 L1 sp s3 ms F EA ER W D D3 CO DU NR RD SY NM AC SV ND RG.
  { destruct segs2; [|inversion F]. injection D as <-. split; [intros i y N; destruct i; discriminate N|]. split; [exact RD|]. rewrite Z.add_0_r. exact SY. }
  destruct segs2 as [|seg segs']; [inversion F|]. assert (FX : written_in lex_lt z g1 y (text_for src y) (records_for src y) seg /\ Forall2 (fun y lg => written_in lex_lt z g1 y (text_for src y) (records_for src y) lg) hs2 segs') by (inversion F; auto).
  clear F. destruct FX as [X F']. pose proof (Forall_inv RG) as (R1 & R2 & R3). apply Forall_inv_tail in RG. rename RG into RG'. cbn [concat] in *. rewrite map_app in CO. apply Forall_app in CO. destruct CO as [CO1 CO2].
  destruct (did_split _ _ _ _ D) as (sq & D1 & D2).
  pose proof (written_calls _ _ _ _ _ _ _ X) as MC1.
  assert (MC2 : Forall (fun c => merge_call c = true) (List.map fst (concat segs'))).
  { clear - F'. induction F' as [|a b hs segs X F IH]; [constructor|]. cbn [concat]. rewrite map_app. apply Forall_app. split; [eapply written_calls; exact X|exact IH]. }
  pose proof (did_during _ _ _ D1 MC1 CO1) as DU1. pose proof (did_during _ _ _ D2 MC2 CO2) as DU2. pose proof (did_during _ _ _ D3 PM PC) as DU3.
  destruct (writes_last z _ _ _ _ _ _ W) as (sta & WF & WR & WX).
  assert (WQ : writes z out prod compr (List.map fst (L1 ++ seg)) (List.map snd (L1 ++ seg)) sq).
  { apply WX; [|rewrite !map_app; eapply run_app; [exact WR|exact D1]]. rewrite map_app. apply Forall_app. split; [exact WF|apply merge_all; assumption]. }
  assert (IP : in_parts z out prod compr (List.map fst L1) sp (List.map fst seg) (List.map snd seg) sq (List.map fst (concat segs' ++ post)) st st2).
  { exists (List.map snd L1), (List.map snd (concat segs' ++ post)). split; [exact W|]. split; [exact D1|]. split; [apply (did_app z _ _ _ _ _ D2 D3)|]. rewrite <- !map_app. rewrite app_assoc_reverse in EA, ER. rewrite <- EA, <- ER. exact RO. }
  destruct X as (a & e & sorted & keys & lines & PE & ST & SS & LN & ->).
  (* the body *)
  assert (LK : length sorted = length keys) by (eapply Forall2_length; exact ST).
  cbn [List.map fst snd] in IP, CO1. rewrite !map_app in IP. rewrite map_app in CO1. cbn [List.map fst snd] in IP, CO1.
  inversion_clear CO1 as [|? ? CA CB]. apply Forall_app in CB. destruct CB as [CB _].
  assert (D1' : exists sb, did z sp [(gdxDataWriteRawStart (y_name y) (text_for src y) (y_dim y + 1) (typ_of y) (sub_of y), a)] sb /\ exists sc, did z sb (concat lines) sc /\ did z sc [(gdxDataWriteDone, e)] sq).
  { destruct (did_split _ [_] _ _ D1) as (sb & Y1 & Y2). destruct (did_split _ _ _ _ Y2) as (sc & Y3 & Y4). eauto. }
  destruct D1' as (sb & Y1 & sc & Y3 & Y4).
  assert (WB : in_writing z (List.map fst (L1 ++ [(gdxDataWriteRawStart (y_name y) (text_for src y) (y_dim y + 1) (typ_of y) (sub_of y), a)])) sb).
  { eapply writes_in_writing. apply WX with (rs' := List.map snd (L1 ++ [(gdxDataWriteRawStart (y_name y) (text_for src y) (y_dim y + 1) (typ_of y) (sub_of y), a)])).
    - rewrite map_app. apply Forall_app. split; [exact WF|]. constructor; [split; [reflexivity|exact CA]|constructor].
    - rewrite !map_app. eapply run_app; [exact WR|exact Y1]. }
  destruct (lines_ok _ _ _ _ LN LK _ _ _ WB CB Y3) as (vals & V1 & V2).
  assert (V3 : Forall2 (value_kept z sq (typ_of y)) sorted vals).
  { pose proof (did_during _ _ _ Y4 ltac:(repeat constructor) ltac:(repeat constructor)) as DD. clear - V1 DD. induction V1 as [|hr v l m V1 F IH]; constructor; [eapply kept_stays; [exact DD|exact V1]|exact IH]. }
  assert (DT : during z (List.map fst (concat segs') ++ List.map fst post) sq st) by (eapply during_trans; [exact DU2|exact DU3]).
  assert (V4 : Forall2 (value_kept z st2 (typ_of y)) sorted vals).
  { clear - V3 DT RO. induction V3 as [|hr v l m V1 F IH]; constructor; [eapply kept_again; [exact RO|]; eapply kept_stays; [exact DT|exact V1]|exact IH]. }
  assert (DA : during z (ms ++ List.map fst ((gdxDataWriteRawStart (y_name y) (text_for src y) (y_dim y + 1) (typ_of y) (sub_of y), a) :: concat lines ++ [(gdxDataWriteDone, e)])) g1 sq) by (eapply during_trans; [exact DU|exact DU1]).
  assert (NA : no_rename (ms ++ List.map fst ((gdxDataWriteRawStart (y_name y) (text_for src y) (y_dim y + 1) (typ_of y) (sub_of y), a) :: concat lines ++ [(gdxDataWriteDone, e)]))) by (apply Forall_app; split; [exact NR|apply merge_rename; exact MC1]).
  assert (DB : during z ((ms ++ List.map fst ((gdxDataWriteRawStart (y_name y) (text_for src y) (y_dim y + 1) (typ_of y) (sub_of y), a) :: concat lines ++ [(gdxDataWriteDone, e)])) ++ List.map fst (concat segs') ++ List.map fst post) g1 st) by (eapply during_trans; [exact DA|exact DT]).
  assert (NB : no_rename ((ms ++ List.map fst ((gdxDataWriteRawStart (y_name y) (text_for src y) (y_dim y + 1) (typ_of y) (sub_of y), a) :: concat lines ++ [(gdxDataWriteDone, e)])) ++ List.map fst (concat segs') ++ List.map fst post)).
  { apply Forall_app. split; [exact NA|]. apply Forall_app. split; apply merge_rename; assumption. }
  assert (SK : forall s k, stands z g1 s k -> 0 <= k <= INT_MAX /\ stands z st2 s k) by (intros s k; eapply stands_kept; eassumption).
  assert (KS : Forall2 (fun hr k => Forall2 (stands z st2) (h_id (fst hr) :: m_labels (snd hr)) k) sorted keys).
  { clear - ST SK. induction ST as [|hr k l m X F IH]; constructor; [|exact IH]. clear - X SK. induction X as [|s k l m X F IH]; constructor; [apply SK; exact X|exact IH]. }
  assert (KB : Forall (fun k => Forall (fun x => 0 <= x <= INT_MAX) k) keys).
  { clear - ST SK. induction ST as [|hr k l m X F IH]; constructor; [|exact IH]. clear - X SK. induction X as [|s k l m X F IH]; constructor; [apply (SK _ _ X)|exact IH]. }
  assert (R3' : Forall (fun hr => zlen (m_labels (snd hr)) = y_dim y) sorted).
  { rewrite Forall_forall in *. intros hr I. apply R3. eapply Permutation_in; [apply Permutation_sym; exact PE|exact I]. }
  assert (KL : Forall (fun k => length k = Z.to_nat (y_dim y + 1)) keys).
  { clear - ST R3' R2. induction ST as [|hr k l m X F IH]; constructor; [|apply IH; exact (Forall_inv_tail R3')]. pose proof (Forall_inv R3') as L. cbn beta in L. unfold zlen in L.
    pose proof (Forall2_length _ _ _ X) as L2. cbn [length] in L2. lia. }
  destruct (records_cut _ _ (y_dim y + 1) _ _ _ V4 KL LK) as (RC1 & RC2).
  assert (TY : 0 <= typ_of y <= dt_equ).
  { destruct R1 as [_ R1]. unfold typ_of. destruct (Z.eqb_spec (y_typ y) dt_alias); unfold dt_set, dt_equ, dt_alias in *; lia. }
  assert (ACC : acceptable z sp (y_name y) (y_dim y + 1) (typ_of y)).
  { split; [eapply free_name; [exact ND|exact SY|exact NM]|]. split; [|split; [apply R1|split; [lia|exact TY]]].
    intros nm I. apply in_map_iff in I. destruct I as (x & <- & I). rewrite Forall_forall in AC. rewrite (AC x I). destruct R1 as ((_ & c & r & -> & _) & _). discriminate. }
  assert (ER0 : exists e0, errors z sp e0) by (eexists; apply errors_iff; reflexivity). destruct ER0 as (e0 & ER0).
  assert (LB : length (List.map snd (concat lines)) = length (List.map fst (concat lines))) by (rewrite !map_length; reflexivity).
  destruct (C58_nothing_is_refused z out prod compr (List.map fst L1) sp (gdxDataWriteRawStart (y_name y) (text_for src y) (y_dim y + 1) (typ_of y) (sub_of y)) (y_name y) (text_for src y) (y_dim y + 1) (typ_of y) (sub_of y)
    (repeat (0, INT_MAX) (Z.to_nat (y_dim y + 1))) (List.map fst (concat lines)) a (List.map snd (concat lines)) e sq (List.map fst (concat segs') ++ List.map fst post) st st2 (zlen hs1) standard_values e0 IP LB
    (RS_plain _ _ _ _ _) (bounds_all _) (lines_calls _ _ _ LN) RD ACC SY SV ER0) as (Q1 & Q2 & Q3 & Q4 & Q5 & Q6 & Q7 & Q8).
  { rewrite V2, RC1. apply Forall_forall. intros kv I. assert (IK : In (fst kv) keys) by (rewrite <- RC2; apply in_map; exact I). rewrite Forall_forall in KB, KL. apply inside_all; auto. }
  { rewrite V2, RC1, RC2. exact SS. }
  rewrite V2, RC1 in Q8.
  assert (MH : merged z src st2 (zlen hs1 + 1) y).
  { split.
    + pose proof (C29_symbols_stay _ _ _ _ _ _ _ _ DT Q7) as Q7'. destruct Q7' as (NZ & Q7'). split; [exact NZ|]. apply (proj1 (C20_metadata_is_found_again _ _ _ _ _ _ _ _ (gdxSymbolInfo (zlen hs1 + 1)) RO Logic.I _)). exact Q7'.
    + exists sorted, (combine keys vals). split; [exact PE|]. split; [apply records_kept; assumption|exact Q8]. }
  assert (IX : (forall i y0, nth_error hs2 i = Some y0 -> merged z src st2 (zlen (hs1 ++ [y]) + Z.of_nat i + 1) y0) /\ ready s3 /\ symbols z s3 (zlen (hs1 ++ [y]) + zlen hs2)).
  { eapply IH with (L1 := L1 ++ _) (sp := sq) (segs2 := segs'); [exact F'| | |exact WQ|exact D2|exact D3|exact CO2|exact DA|exact NA|exact Q5| | | | | |exact RG'].
    + rewrite EA. rewrite !app_assoc. reflexivity.
    + rewrite ER. rewrite !app_assoc. reflexivity.
    + replace (zlen (hs1 ++ [y])) with (zlen hs1 + 1) by (rewrite zlen_app; reflexivity). exact Q6.
    + intros j x NJ. destruct (Nat.lt_ge_cases j (length hs1)) as [LJ|LJ].
      * rewrite nth_error_app1 in NJ by exact LJ. destruct (NM _ _ NJ) as (d & t & Y). exists d, t. eapply C29_symbols_stay; [exact DU1|exact Y].
      * rewrite nth_error_app2 in NJ by exact LJ. destruct (j - length hs1)%nat as [|m] eqn:JM; [|destruct m; discriminate NJ]. injection NJ as <-. exists (y_dim y + 1), (typ_of y). replace (Z.of_nat j + 1) with (zlen hs1 + 1) by (unfold zlen; lia). exact Q7.
    + eapply plain_acronyms; [exact DU1|exact MC1|exact AC].
    + eapply same_specials; [exact DU1|exact MC1|exact SV].
    + rewrite <- app_assoc. exact ND. }
  replace (zlen (hs1 ++ [y])) with (zlen hs1 + 1) in IX by (rewrite zlen_app; reflexivity). destruct IX as (IA & IB & IC). split; [|split; [exact IB|]].
  - intros [|i] y' N; [injection N as <-; rewrite Z.add_0_r; exact MH|]. cbn [nth_error] in N. replace (zlen hs1 + Z.of_nat (S i) + 1) with (zlen hs1 + 1 + Z.of_nat i + 1) by lia. apply IA. exact N.
  - replace (zlen hs1 + zlen (y :: hs2)) with (zlen hs1 + 1 + zlen hs2) by (unfold zlen; cbn [length]; lia). exact IC.
Qed.

(** ** The whole output *)

Lemma did_same : forall a l b b', did z a l b -> did z a l b' -> b = b'.
Proof. intros a l b b' A B. unfold did in *. congruence. Qed.
Lemma searches_same : forall l a b, Forall (fun x => is_search (fst x)) l -> did z a l b -> a = b.
Proof.
  induction l as [|[c r] l IH]; intros a b F D; [injection D as <-; reflexivity|]. inversion_clear F as [|? ? X F']. destruct (did_cons _ _ _ _ _ D) as (s & E & D'). destruct c; try destruct X.
  assert (X1 : s = a) by (cbn [exec] in E; unfold find_symbol in E; destruct (str_eqb _ _) in E; [|destruct (d_nn _) in E]; cbv zeta in E; congruence). subst s. apply IH; assumption.
Qed.
Lemma names_filling : forall files lg, names_written files lg -> Forall (fun c => filling c = true) (List.map fst lg).
Proof. intros files lg H. induction H; cbn [List.map fst]; repeat constructor; exact IHnames_written. Qed.
Lemma labels_count : forall o files y, Forall file_ok files -> In y (heads (sources o files)) -> 0 <= y_dim y < 20 /\ Forall (fun hr => zlen (m_labels (snd hr)) = y_dim y) (records_for (sources o files) y).
Proof.
  intros o files y FO I. pose proof (C56_selection _ _ _ I) as (_ & D & h & I1 & I2). rewrite Forall_forall in FO. pose proof (FO _ I1) as FH. unfold file_ok in FH. rewrite Forall_forall in FH. pose proof (FH _ I2) as (D0 & _). split; [lia|].
  apply Forall_forall. intros hr J. unfold records_for in J. apply in_flat_map in J. destruct J as ([h' y'] & J1 & J2). unfold part in J2. cbn [fst snd] in J2. destruct (same_nameb y y' && alikeb y y') eqn:E; [|destruct J2]. apply andb_true_iff in E. destruct E as (_ & E). apply alikeb_spec in E. destruct E as (E & _).
  apply in_map_iff in J2. destruct J2 as (r & <- & J2). cbn [snd]. unfold sources in J1. apply in_flat_map in J1. destruct J1 as (h2 & J1 & J3). apply in_map_iff in J3. destruct J3 as (y2 & EQ & J3). injection EQ as -> ->. apply filter_In in J3. destruct J3 as (J3 & _).
  pose proof (FO _ J1) as FH'. unfold file_ok in FH'. rewrite Forall_forall in FH'. destruct (FH' _ J3) as (_ & RO & _). apply recs_dim in RO. rewrite Forall_forall in RO. rewrite E. apply RO. exact J2.
Qed.

(** The set of the files. *)
Lemma names_ok : forall files lg, names_written files lg -> forall cs s s', in_writing z cs s -> Forall call_ok (List.map fst lg) -> did z s lg s' ->
  exists vals, Forall2 (fun h v => exists n u, v = [fofZ n] /\ elem_text z s' n u /\ cleaned (firstn 255 (h_info h)) u) files vals /\
    handed_str (List.map fst lg) = combine (List.map (fun h => [h_id h]) files) vals.
Proof.
  intros files lg H. induction H as [|h l lg a b H IH]; intros cs s s' W CO D; [exists []; split; [constructor|reflexivity]|].
  destruct (did_cons _ _ _ _ _ D) as (s1 & X1 & D1). destruct (did_cons _ _ _ _ _ D1) as (s2 & X2 & D2). cbn [List.map fst] in CO. inversion_clear CO as [|? ? CO1 CO']. inversion_clear CO' as [|? ? CO2 CO3].
  pose proof (names_calls _ _ H) as MC.
  assert (DA : during z [gdxAddSetText (h_info h)] s s1) by (apply (did_during s [(gdxAddSetText (h_info h), a)]); [unfold did; cbn [List.map fst snd run]; rewrite X1; reflexivity|repeat constructor|repeat constructor; exact CO1]).
  assert (DB : during z [gdxDataWriteStr [h_id h] [fofZ (hd 0 (r_ints a))]] s1 s2) by (apply (did_during s1 [(gdxDataWriteStr [h_id h] [fofZ (hd 0 (r_ints a))], b)]); [unfold did; cbn [List.map fst snd run]; rewrite X2; reflexivity|repeat constructor|constructor; [exact CO2|constructor]]).
  pose proof (did_during _ _ _ D2 MC CO3) as DC.
  assert (W2 : in_writing z ((cs ++ [gdxAddSetText (h_info h)]) ++ [gdxDataWriteStr [h_id h] [fofZ (hd 0 (r_ints a))]]) s2).
  { destruct W as (sta & ST & DU). exists sta. split; [exact ST|]. eapply during_trans; [eapply during_trans; [exact DU|exact DA]|exact DB]. }
  destruct (IH _ _ _ W2 CO3 D2) as (vals & V1 & V2). destruct (C33_adding_a_text _ _ _ _ _ _ W X1) as (n & u & -> & ET & CL). cbn [r_ints ret_i hd] in *.
  exists ([fofZ n] :: vals). split.
  - constructor; [|exact V1]. exists n, u. split; [reflexivity|]. split; [|exact CL]. eapply C33_texts_stay; [exact DC|]. eapply C33_texts_stay; [exact DB|exact ET].
  - cbn [List.map fst handed_str combine]. rewrite V2. reflexivity.
Qed.
Lemma set_name_valid : forall k, 1 <= k -> wf_ident (set_name k).
Proof.
  intros k K. assert (DD : forall fuel n, 0 <= n -> zlen (dec_digits fuel n) <= Z.of_nat fuel /\ Forall ident_char (dec_digits fuel n)).
  { induction fuel as [|fuel IH]; intros n N; [split; [reflexivity|constructor]|]. cbn [dec_digits]. pose proof (Z.mod_pos_bound n 10 ltac:(lia)) as MB.
    assert (LC : ident_char (48 + n mod 10)) by (unfold ident_char; right; left; lia). destruct (n <? 10).
    - cbn [app]. split; [unfold zlen; cbn [length]; lia|constructor; [exact LC|constructor]].
    - destruct (IH (n / 10) ltac:(apply Z.div_pos; lia)) as (A & B). split; [rewrite zlen_app; unfold zlen at 2; cbn [length]; lia|apply Forall_app; split; [exact B|constructor; [exact LC|constructor]]]. }
  unfold set_name, int_str. destruct (Z.ltb_spec k 0); [lia|]. destruct (DD 20%nat k ltac:(lia)) as (A & B). split; [rewrite zlen_app; change (zlen (s2z "Merged_set_")) with 11; lia|].
  exists 77, (s2z "erged_set_" ++ dec_digits 20 k). split; [reflexivity|]. split; [unfold letter; lia|]. apply Forall_app. split; [|exact B].
  assert (X : forall s, good_ident (77 :: s) = true -> Forall ident_char s) by (intros s G; apply good_ident_spec in G; destruct G as (_ & c & r & E & _ & F); injection E as _ ->; exact F). apply X. vm_compute. reflexivity.
Qed.
Lemma found_stands : forall name prod compr cs rs st st2 s k, reopened z name prod compr cs rs st st2 -> label_found z st2 s k -> stands z st2 s k.
Proof.
  intros name prod compr cs rs st st2 s k RO L1. pose proof RO as (WST & _). destruct (writes_labels _ _ _ _ _ _ _ WST) as (LST & _ & UST).
  destruct (C20_labels_are_found_again _ _ _ _ _ _ _ _ RO) as [A B]. apply B in L1. apply label_found_spec in L1; [|assumption..]. apply found_iff in L1. destruct L1 as [L1 _]. apply sl_find_Some in L1. destruct L1 as (e & E1 & E2).
  exists (fst e). split; [|apply same_text_spec in E2; exact E2]. apply A. apply label_iff. unfold uel_text. replace (k - 1 + 1 - 1) with (k - 1) in E1 by lia. rewrite E1. reflexivity.
Qed.
Lemma follow_permutation : forall A B (R : A -> B -> Prop) b b', Permutation b b' -> forall a, Forall2 R a b -> exists a', Permutation a a' /\ Forall2 R a' b'.
Proof.
  intros A B R b b' P. induction P as [|x l l' P IH|x y l|l l' l'' P1 IH1 P2 IH2]; intros a F.
  - exists a. split; [apply Permutation_refl|exact F].
  - inversion F as [|x0 ? a0 ? X F']. subst. destruct (IH _ F') as (a' & Q & G). exists (x0 :: a'). split; [apply perm_skip; exact Q|constructor; assumption].
  - inversion F as [|x0 ? a0 ? X F']. subst. inversion F' as [|x1 ? a1 ? X1 F1]. subst. exists (x1 :: x0 :: a1). split; [apply perm_swap|]. constructor; [exact X1|]. constructor; assumption.
  - destruct (IH1 _ F) as (a' & Q & G). destruct (IH2 _ G) as (a'' & Q2 & G2). exists a''. split; [eapply Permutation_trans; eassumption|exact G2].
Qed.

Lemma whole_output : forall o out compr files g q st2, merge_files z o out compr files g = Done q ->
  o_big o = None -> Forall file_ok files -> few files -> consistent o files -> (forall h y, In h files -> In y (h_syms h) -> regular y) ->
  (forall y, In y (heads (sources o files)) -> NoDup (List.map identity (records_for (sources o files) y))) ->
  output_read z out compr g q st2 ->
  (forall n y, nth_error (heads (sources o files)) n = Some y -> merged z (sources o files) st2 (Z.of_nat n + 1) y) /\
  (Forall (fun h => well_formed (trim_right (h_id h))) files -> NoDup (List.map (fun h => upper (trim_right (h_id h))) files) -> listed z files st2 (zlen (heads (sources o files)) + 1)).
Proof.
  intros o out compr files g q st2 H OB FO FW CS RG ND OR.
  destruct (C55_merged _ _ _ _ _ _ _ H OB FO FW CS) as (r0 & r1 & g1 & DQ & C). destruct OR as (r0' & L & rc & st & F & rd & rm & LQ & DL & CO & CF & DG & SZ & CL & DG2 & RM & OP).
  destruct C as [(_ & E)|(regs & segs & searches & k & a & names & b & c & E & R0 & DR & M1 & FR & FS & (before & rn & SB & SN) & K1 & NW & SW)].
  { exfalso. rewrite LQ in E. injection E as _ E. change [(gdxStoreDomainSetsSet 0, r1)] with ([] ++ [(gdxStoreDomainSetsSet 0, r1)]) in E. apply app_inj_tail in E. destruct E as (_ & E). discriminate E. }
  set (post := searches ++ (gdxDataWriteStrStart (set_name k) (s2z "Merge set") 1 dt_set 0, a) :: names ++ [(gdxDataWriteDone, b)]).
  set (pre := (gdxStoreDomainSetsSet 0, r1) :: regs).
  assert (EL : r0' = r0 /\ L = pre ++ concat segs ++ post /\ rc = c).
  { rewrite LQ in E. cbn [app] in E. injection E as E0 E. split; [exact E0|].
    assert (X : L ++ [(gdxClose, rc)] = (pre ++ concat segs ++ post) ++ [(gdxClose, c)]).
    { rewrite E. unfold pre, post. cbn [app]. rewrite <- !app_assoc. cbn [app]. rewrite <- !app_assoc. reflexivity. }
    apply app_inj_tail in X. destruct X as (X & Y). injection Y as Y. auto. }
  destruct EL as (-> & EL & ->).
  destruct (did_cons _ _ _ _ _ DL) as (sta & EO & DL'). cbn [app] in DR. destruct (did_cons _ _ _ _ _ DR) as (sta' & EO' & DP). rewrite EO in EO'. injection EO' as <-.
  pose proof (open_code _ _ _ _ _ _ _ EO R0) as RC. rewrite EL in DL'. destruct (did_split _ _ _ _ DL') as (g1' & DP' & DL2). pose proof (did_same _ _ _ _ DP' DP) as ->. clear DP'.
  destruct (did_split _ _ _ _ DL2) as (s3 & DS & D3).
  rewrite EL, !map_app in CO. apply Forall_app in CO. destruct CO as [CO1 CO]. apply Forall_app in CO. destruct CO as [CO2 CO3].
  assert (MP : Forall (fun c => merge_call c = true) (List.map fst pre)).
  { unfold pre. cbn [List.map fst]. constructor; [reflexivity|]. clear - FR. induction FR as [|[c r] l X F IH]; constructor; [destruct c; try destruct X; reflexivity|exact IH]. }
  assert (MS : Forall (fun c => merge_call c = true) (List.map fst (concat segs))).
  { clear - SW. induction SW as [|y lg hs segs X F IH]; [constructor|]. cbn [concat]. rewrite map_app. apply Forall_app. split; [eapply written_calls; exact X|exact IH]. }
  assert (MQ : Forall (fun c => merge_call c = true) (List.map fst post)).
  { unfold post. rewrite map_app. apply Forall_app. split; [clear - FS; induction FS as [|[c r] l X F IH]; constructor; [destruct c; try destruct X; reflexivity|exact IH]|]. cbn [List.map fst]. constructor; [reflexivity|].
    rewrite map_app. apply Forall_app. split; [eapply names_calls; exact NW|repeat constructor]. }
  assert (PO : str_ok (s2z "gdxmerge")) by (vm_compute; repeat (constructor; [split; [discriminate|reflexivity]|]); constructor).
  assert (WX : forall l s, did z sta l s -> Forall (fun c => merge_call c = true) (List.map fst l) -> Forall call_ok (List.map fst l) -> writes z out (s2z "gdxmerge") compr (List.map fst l) (List.map snd l) s).
  { intros l s D M K. apply writes_made. exists g, sta, r0. split; [exact EO|]. split; [exact RC|]. split; [exact PO|]. split; [apply merge_all; assumption|exact D]. }
  pose proof (WX _ _ DP MP CO1) as WP.
  (* ready after the last symbol *)
  assert (MST : g_mode st = fw_init).
  { destruct (writes_jinv z _ _ _ _ _ _ WP) as ((J & JI) & _). destruct (segs_ready _ _ _ _ _ _ _ _ SW _ _ _ JI M1 CO2 DS) as (M3 & J3 & JI3).
    unfold post in D3. destruct (did_split _ _ _ _ D3) as (s4 & D4 & D5). pose proof (searches_same _ _ _ FS D4) as <-. unfold post in CO3, MQ. rewrite map_app in CO3, MQ. apply Forall_app in CO3, MQ. destruct CO3 as [_ CO3]. destruct MQ as [_ MQ].
    pose proof (merge_all _ MQ CO3) as K. unfold did in D5. cbn [List.map fst snd] in D5, K. rewrite !map_app in D5. rewrite map_app in K. cbn [List.map fst snd] in D5, K.
    destruct (symbol_ready _ _ _ (gdxDataWriteStrStart (set_name k) (s2z "Merge set") 1 dt_set 0) _ _ _ _ JI3 M3 eq_refl (names_filling _ _ NW) K D5) as (X & _). exact X. }
  assert (RO : reopened z out (s2z "gdxmerge") compr (List.map fst L) (List.map snd L) st st2).
  { split; [|split; [exact MST|]].
    - rewrite EL. apply WX; [exact DL'| |]; rewrite !map_app; repeat (apply Forall_app; split; [assumption|]); assumption.
    - rewrite LQ in DQ. change ((gdxOpenWriteEx out (s2z "gdxmerge") compr, r0) :: L ++ [(gdxClose, c)]) with (((gdxOpenWriteEx out (s2z "gdxmerge") compr, r0) :: L) ++ [(gdxClose, c)]) in DQ.
      destruct (did_split _ _ _ _ DQ) as (stx & DX & DC). pose proof (did_same _ _ _ _ DX DL) as ->. destruct (did_cons _ _ _ _ _ DC) as (s & EC & DN). injection DN as ->. exists c, (q_g q), F, rd, rm. auto 12. }
  pose proof (did_during _ _ _ DP MP CO1) as DU.
  assert (CR : created z sta) by (exists g, out, (s2z "gdxmerge"), compr, r0; split; [exact EO|exact RC]).
  assert (SX : (forall n y, nth_error (heads (sources o files)) n = Some y -> merged z (sources o files) st2 (zlen (@nil msym) + Z.of_nat n + 1) y) /\ ready s3 /\ symbols z s3 (zlen (@nil msym) + zlen (heads (sources o files)))).
  { eapply (segs_ok out (s2z "gdxmerge") compr (sources o files) g1 (List.map fst pre) _ _ st st2 RO) with (hs2 := heads (sources o files)) (segs2 := segs) (L1 := pre) (ms := []) (sp := g1) (post := post);
    [left; eapply writes_in_writing; exact WP|exact MQ|exact CO3| | | |exact WP|exact DS|exact D3|exact CO2| | |exact M1| | | | | |].
  - clear - SW ND. revert ND SW. generalize (heads (sources o files)) as hs. intros hs ND SW. induction SW as [|y lg hs segs Y F IH]; [constructor|]. constructor; [apply C55_in_order; [exact Y|apply ND; left; reflexivity]|apply IH; intros y' I; apply ND; right; exact I].
  - rewrite EL. reflexivity.
  - rewrite EL. reflexivity.
  - apply during_nil.
  - constructor.
  - eapply C29_only_named_calls_add; [exact DU| |].
    + unfold pre. cbn [List.map fst]. constructor; [reflexivity|]. clear - FR. induction FR as [|[c r] l X F IH]; constructor; [destruct c; try destruct X; reflexivity|exact IH].
    + apply symbols_iff. unfold sym_count. destruct (created_dic _ _ CR) as (-> & _). reflexivity.
  - intros i x C. destruct i; discriminate C.
  - eapply plain_acronyms; [exact DU|exact MP|]. destruct (created_dic _ _ CR) as (_ & _ & _ & _ & _ & -> & _). constructor.
  - eapply same_specials; [exact DU|exact MP|]. apply special_iff. destruct (created_facts _ _ CR) as (_ & _ & _ & -> & _). reflexivity.
  - cbn [app]. apply heads_distinct.
  - apply Forall_forall. intros y' I. split; [|apply labels_count; assumption]. pose proof (C56_selection _ _ _ I) as (_ & _ & h & I1 & I2). eapply RG; eassumption. }
  destruct SX as (SA & SR & SC). split; [exact SA|]. intros WFI NDI. change (zlen (@nil msym)) with 0 in SC. cbn [Z.add] in SC.
  (* the set of the files *)
  unfold post in D3, CO3, MQ. destruct (did_split _ _ _ _ D3) as (s4 & D4 & D5). pose proof (searches_same _ _ _ FS D4) as <-.
  rewrite map_app in CO3, MQ. apply Forall_app in CO3, MQ. destruct CO3 as [CO4 CO5]. destruct MQ as [MQ4 MQ5].
  set (lst := (gdxDataWriteStrStart (set_name k) (s2z "Merge set") 1 dt_set 0, a)) in *.
  set (L1 := pre ++ concat segs ++ searches).
  assert (DL1 : did z sta L1 s3) by (unfold L1; eapply did_app; [exact DP|eapply did_app; [exact DS|exact D4]]).
  assert (ML1 : Forall (fun c => merge_call c = true) (List.map fst L1)) by (unfold L1; rewrite !map_app; repeat (apply Forall_app; split; [assumption|]); assumption).
  assert (CL1 : Forall call_ok (List.map fst L1)) by (unfold L1; rewrite !map_app; repeat (apply Forall_app; split; [assumption|]); assumption).
  pose proof (WX _ _ DL1 ML1 CL1) as W3. pose proof (writes_in_writing _ _ _ _ _ _ _ W3) as IW3.
  assert (IP : in_parts z out (s2z "gdxmerge") compr (List.map fst L1) s3 (List.map fst (lst :: names ++ [(gdxDataWriteDone, b)])) (List.map snd (lst :: names ++ [(gdxDataWriteDone, b)])) st [] st st2).
  { exists (List.map snd L1), []. split; [exact W3|]. split; [exact D5|]. split; [reflexivity|].
    assert (EE : L = L1 ++ lst :: names ++ [(gdxDataWriteDone, b)]) by (rewrite EL; unfold L1, post; rewrite <- !app_assoc; reflexivity).
    rewrite !app_nil_r, <- !map_app. rewrite <- EE. exact RO. }
  cbn [List.map fst snd] in IP. rewrite !map_app in IP. cbn [List.map fst snd lst] in IP.
  (* before it *)
  assert (DU3 : during z (List.map fst L1) sta s3) by (apply did_during; assumption).
  assert (AC3 : Forall (fun x => ac_name x = []) (d_acros (g_dic s3))) by (eapply plain_acronyms; [exact DU3|exact ML1|]; destruct (created_dic _ _ CR) as (_ & _ & _ & _ & _ & -> & _); constructor).
  assert (SV3 : special_values z s3 standard_values) by (eapply same_specials; [exact DU3|exact ML1|]; apply special_iff; destruct (created_facts _ _ CR) as (_ & _ & _ & -> & _); reflexivity).
  assert (FREE : forall n nm d t, symbol z s3 n nm d t -> upper nm <> upper (set_name k)).
  { apply (proj2 (C29_names_are_found z _ _ (set_name k) IW3 ltac:(discriminate))). rewrite SB in D4, FS. destruct (did_split _ _ _ _ D4) as (s5 & D6 & D7).
    apply Forall_app in FS. destruct FS as [FS _]. pose proof (searches_same _ _ _ FS D6) as <-. destruct (did_cons _ _ _ _ _ D7) as (s6 & X7 & _). exists rn. split; [exists s6; exact X7|].
    cbn [exec] in X7. unfold find_symbol in X7. destruct (str_eqb _ _); [injection X7 as <- _; cbn in SN; lia|]. destruct (d_nn _); [|injection X7 as <- _; cbn in SN; lia].
    cbv zeta in X7. injection X7 as <- _. cbn [r_ints ret_i hd] in SN. cbn [r_code ret_i]. destruct (Z.leb_spec 1 (sym_find (g_dic s3) (set_name k))); [lia|reflexivity]. }
  assert (ACC : acceptable z s3 (set_name k) 1 dt_set).
  { split; [exact FREE|]. split; [|split; [apply set_name_valid; exact K1|split; unfold dt_set, dt_equ; lia]].
    intros nm I. apply in_map_iff in I. destruct I as (x & <- & I). rewrite Forall_forall in AC3. rewrite (AC3 x I). unfold set_name. discriminate. }
  assert (ER0 : exists e0, errors z s3 e0) by (eexists; apply errors_iff; reflexivity). destruct ER0 as (e0 & ER0).
  (* the names *)
  destruct (did_split _ [lst] _ _ D5) as (sb & Y1 & Y2). destruct (did_split _ _ _ _ Y2) as (sc & Y3 & Y4).
  cbn [List.map fst] in CO5, MQ5. pose proof (Forall_inv CO5) as CA. apply Forall_inv_tail in CO5. rewrite map_app in CO5. apply Forall_app in CO5. destruct CO5 as [CN _].
  assert (WB : in_writing z (List.map fst (L1 ++ [lst])) sb).
  { eapply writes_in_writing. apply WX; [eapply did_app; [exact DL1|exact Y1]| |]; rewrite map_app; apply Forall_app; (split; [assumption|]); constructor; [reflexivity|constructor|exact CA|constructor]. }
  destruct (names_ok _ _ NW _ _ _ WB CN Y3) as (vals & V1 & V2).
  pose proof (did_during _ _ _ Y4 ltac:(repeat constructor) ltac:(repeat constructor)) as DD.
  assert (V3 : Forall2 (fun h v => exists n u, v = [fofZ n] /\ elem_text z st2 n u /\ cleaned (firstn 255 (h_info h)) u) files vals).
  { clear - V1 DD RO. induction V1 as [|h v l m (n & u & A1 & A2 & A3) F IH]; constructor; [|exact IH]. exists n, u. split; [exact A1|]. split; [|exact A3].
    apply (proj1 (C20_texts_are_found_again _ _ _ _ _ _ _ _ _ _ RO)). eapply C33_texts_stay; [exact DD|exact A2]. }
  assert (HC : List.map (cut_str 1 dt_set) (handed_str (List.map fst names)) = combine (List.map (fun h => [h_id h]) files) vals).
  { rewrite V2. clear - V3. induction V3 as [|h v l m (n & u & -> & _) F IH]; [reflexivity|]. cbn [List.map combine]. rewrite IH. reflexivity. }
  destruct (C58_labels z out (s2z "gdxmerge") compr (List.map fst L1) s3 (set_name k) (s2z "Merge set") 1 dt_set 0 (List.map fst names) a (List.map snd names) b st [] st st2 (zlen (heads (sources o files))) standard_values e0 IP)
    as (_ & _ & _ & _ & _ & _ & Q7 & items & recs & Q8 & Q9 & _ & Q10).
  { rewrite !map_length. reflexivity. }
  { clear - NW. induction NW as [|h l lg a b H IH]; [constructor|]. cbn [List.map fst]. repeat (constructor; [exact Logic.I|]). exact IH. }
  { constructor. }
  { exact SR. }
  { exact ACC. }
  { exact SC. }
  { exact SV3. }
  { exact ER0. }
  { rewrite HC. clear - V3 WFI. induction V3 as [|h v l m _ F IH]; [constructor|]. inversion_clear WFI as [|? ? W1 W2]. cbn [List.map combine]. constructor; [cbn [fst]; constructor; [exact W1|constructor]|apply IH; exact W2]. }
  { rewrite HC. replace (List.map spelled (combine (List.map (fun h => [h_id h]) files) vals)) with (List.map (fun x => [x]) (List.map (fun h => upper (trim_right (h_id h))) files)).
    - clear - NDI. induction NDI as [|x l X F IH]; [constructor|]. cbn [List.map]. constructor; [|exact IH]. intros Y. apply X. apply in_map_iff in Y. destruct Y as (y & E & Y). injection E as ->. exact Y.
    - clear - V3. induction V3 as [|h v l m _ F IH]; [reflexivity|]. cbn [List.map combine]. rewrite IH. reflexivity. }
  exists k. split; [exact K1|]. split.
  { destruct Q7 as (NZ & Q7). split; [exact NZ|]. apply (proj1 (C20_metadata_is_found_again _ _ _ _ _ _ _ _ (gdxSymbolInfo (zlen (heads (sources o files)) + 1)) RO Logic.I _)). exact Q7. }
  rewrite HC in Q8.
  assert (FL : Forall2 (file_listed z st2) files items).
  { clear - V3 Q8 RO. revert items Q8. induction V3 as [|h v l m (n & u & -> & A2 & A3) F IH]; intros items Q8; cbn [List.map combine] in Q8; inversion Q8 as [|? it ? items' (N1 & N2) Q8' E1 E2]; [constructor|]. subst. constructor; [|apply IH; exact Q8'].
    cbn [fst snd] in N1, N2. inversion N1 as [|? kk ? ks N3 N4 E1 E2]. subst. inversion N4. subst. exists kk, n, u. split; [destruct it as [k0 v0]; cbn in *; congruence|]. split; [eapply found_stands; eassumption|]. split; assumption. }
  destruct (follow_permutation _ _ _ _ _ Q9 _ FL) as (sorted & P1 & P2). exists sorted, recs. auto.
Qed.

Theorem C59_merged_file : forall o out compr files g q st2, merge_files z o out compr files g = Done q ->
  o_big o = None -> Forall file_ok files -> few files -> consistent o files -> (forall h y, In h files -> In y (h_syms h) -> regular y) ->
  (forall y, In y (heads (sources o files)) -> NoDup (List.map identity (records_for (sources o files) y))) ->
  output_read z out compr g q st2 ->
  forall n y, nth_error (heads (sources o files)) n = Some y -> merged z (sources o files) st2 (Z.of_nat n + 1) y.
Proof. intros. eapply whole_output; eassumption. Qed.

(** After the merged symbols comes the set of the input files, if their names are labels
    and different: each file with a text that describes it. *)
Theorem C59_file_names : forall o out compr files g q st2, merge_files z o out compr files g = Done q ->
  o_big o = None -> Forall file_ok files -> few files -> consistent o files -> (forall h y, In h files -> In y (h_syms h) -> regular y) ->
  (forall y, In y (heads (sources o files)) -> NoDup (List.map identity (records_for (sources o files) y))) ->
  output_read z out compr g q st2 ->
  Forall (fun h => well_formed (trim_right (h_id h))) files -> NoDup (List.map (fun h => upper (trim_right (h_id h))) files) ->
  listed z files st2 (zlen (heads (sources o files)) + 1).
Proof. intros. eapply whole_output; eassumption. Qed.
End Z.

(** Reading the output delivers, for each symbol, all the records for it and no others. *)
Theorem C59_merged_file_read : forall z o out compr files g q st2, merge_files z o out compr files g = Done q ->
  o_big o = None -> Forall file_ok files -> few files -> consistent o files -> (forall h y, In h files -> In y (h_syms h) -> regular y) ->
  (forall y, In y (heads (sources o files)) -> NoDup (List.map identity (records_for (sources o files) y))) ->
  output_read z out compr g q st2 -> no_numbering z st2 ->
  forall n y, nth_error (heads (sources o files)) n = Some y ->
  exists sorted recs f, Permutation (records_for (sources o files) y) sorted /\ Forall2 (record_kept z st2 (typ_of y)) sorted recs /\
    translates standard_values standard_values f /\ reads_all z st2 (Z.of_nat n + 1) (as_read f None recs).
Proof.
  intros z o out compr files g q st2 H OB FO FW CS RG ND OR NN n y N. destruct (C59_merged_file z _ _ _ _ _ _ _ H OB FO FW CS RG ND OR _ _ N) as (_ & sorted & recs & A & B & W).
  assert (DM : y_dim y + 1 <> 0) by (destruct (labels_count o files y FO ltac:(eapply nth_error_In; exact N)) as (D & _); lia).
  destruct (C01_after_opening _ _ _ _ _ _ _ W (or_introl DM) (or_intror NN)) as (f & F1 & F2). exists sorted, recs, f. auto.
Qed.

Lemma opened_back : forall z st2 n dim typ wt recs, wrote z st2 n dim typ wt recs -> some_record dim recs -> no_acronyms wt recs \/ no_numbering z st2 ->
  exists f, translates wt standard_values f /\ reads_all z st2 n (as_read f None recs).
Proof.
  intros z st2 n dim typ wt recs W SR NA. destruct (wrote_holds _ _ _ _ _ _ _ W) as (H & T & M & _).
  exists (sees st2 wt). split.
  - intros x U A. eapply sees_plain; try eassumption. apply H.
  - eapply raw_back_ready; try eassumption. destruct NA as [NA|NA]; [left; exact NA|right; eapply no_numbering_env; exact NA].
Qed.
(** Reading the set of the input files delivers every file, and nothing else. *)
Theorem C59_file_names_read : forall z o out compr files g q st2, merge_files z o out compr files g = Done q ->
  o_big o = None -> Forall file_ok files -> few files -> consistent o files -> (forall h y, In h files -> In y (h_syms h) -> regular y) ->
  (forall y, In y (heads (sources o files)) -> NoDup (List.map identity (records_for (sources o files) y))) ->
  output_read z out compr g q st2 -> no_numbering z st2 ->
  Forall (fun h => well_formed (trim_right (h_id h))) files -> NoDup (List.map (fun h => upper (trim_right (h_id h))) files) ->
  exists sorted recs f, Permutation files sorted /\ Forall2 (file_listed z st2) sorted recs /\
    translates standard_values standard_values f /\ reads_all z st2 (zlen (heads (sources o files)) + 1) (as_read f None recs).
Proof.
  intros z o out compr files g q st2 H OB FO FW CS RG ND OR NN WF NF. destruct (C59_file_names z _ _ _ _ _ _ _ H OB FO FW CS RG ND OR WF NF) as (k & _ & _ & sorted & recs & A & B & W).
  assert (DM : 1 <> 0) by lia. destruct (opened_back _ _ _ _ _ _ _ W (or_introl DM) (or_intror NN)) as (f & F1 & F2). exists sorted, recs, f. auto.
Qed.

(** *** The case of [C55_case] *)

Definition mg_q : mst := match mg_run no_mopts mg_files with Done q => q | UB => start_mst case_object end.
Definition mg_calls : list (call * resp) := removelast (tl (mg_log no_mopts mg_files)).
Definition mg_st : gst := state_of (run rle_zlib (gdxOpenWriteEx (s2z "o.gdx") (s2z "gdxmerge") 0 :: List.map fst mg_calls) case_object).
Definition mg_file : list Z := match disk_get (e_disk (g_env (q_g mg_q))) (s2z "o.gdx") with Some F => F | None => [] end.
Definition mg_read : gst := state_of (exec rle_zlib (gdxOpenReadEx (s2z "o.gdx") 0) (q_g mg_q)).
Lemma mg_output : output_read rle_zlib (s2z "o.gdx") 0 case_object mg_q mg_read.
Proof.
  exists (ret_i 1 [0]), mg_calls, (ret 0), mg_st, mg_file, (q_g mg_q), 0. split; [vm_compute; reflexivity|]. split; [vm_compute; reflexivity|].
  split; [eapply all_ok; [apply call_okb_ok|vm_compute; reflexivity]|]. split; [apply counters_fit_test; vm_compute; reflexivity|].
  split; [vm_compute; reflexivity|]. split; [vm_compute; reflexivity|]. split; [split; vm_compute; reflexivity|]. split; [vm_compute; reflexivity|]. split; [reflexivity|]. vm_compute. reflexivity.
Qed.
Lemma mg_regular : forall h y, In h mg_files -> In y (h_syms h) -> regular y.
Proof.
  intros h y [<-|[<-|[]]] [<-|[<-|[]]]; (split; [apply good_ident_spec; vm_compute; reflexivity|vm_compute; intuition discriminate]).
Qed.
Lemma mg_distinct : forall y, In y (heads (sources no_mopts mg_files)) -> NoDup (List.map identity (records_for (sources no_mopts mg_files) y)).
Proof.
  assert (X : heads (sources no_mopts mg_files) = [mg_x1; mg_s]) by reflexivity. rewrite X. intros y [<-|[<-|[]]]; vm_compute; repeat constructor; cbn; intuition discriminate.
Qed.
Lemma mg_done : merge_files rle_zlib no_mopts (s2z "o.gdx") 0 mg_files case_object = Done mg_q.
Proof. vm_compute. reflexivity. Qed.
Lemma mg_any : forall q st2, merge_files rle_zlib no_mopts (s2z "o.gdx") 0 mg_files case_object = Done q -> output_read rle_zlib (s2z "o.gdx") 0 case_object q st2 ->
  merged rle_zlib (sources no_mopts mg_files) st2 1 mg_x1 /\ merged rle_zlib (sources no_mopts mg_files) st2 2 mg_s.
Proof.
  intros q st2 R OR. destruct C55_case as (_ & FO & FW & CS & _).
  pose proof (C59_merged_file rle_zlib _ _ _ _ _ _ _ R eq_refl FO FW CS mg_regular mg_distinct OR) as M. split; [apply (M 0%nat)|apply (M 1%nat)]; reflexivity.
Qed.
Lemma mg_any_read : forall q st2, merge_files rle_zlib no_mopts (s2z "o.gdx") 0 mg_files case_object = Done q -> output_read rle_zlib (s2z "o.gdx") 0 case_object q st2 -> no_numbering rle_zlib st2 ->
  exists sorted recs f, Permutation (records_for (sources no_mopts mg_files) mg_s) sorted /\ Forall2 (record_kept rle_zlib st2 dt_set) sorted recs /\
    translates standard_values standard_values f /\ reads_all rle_zlib st2 2 (as_read f None recs).
Proof.
  intros q st2 R OR NN. destruct C55_case as (_ & FO & FW & CS & _).
  apply (C59_merged_file_read rle_zlib _ _ _ _ _ _ _ R eq_refl FO FW CS mg_regular mg_distinct OR NN 1%nat mg_s). reflexivity.
Qed.
Example C59_case : merged rle_zlib (sources no_mopts mg_files) mg_read 1 mg_x1 /\ merged rle_zlib (sources no_mopts mg_files) mg_read 2 mg_s.
Proof. exact (mg_any mg_q mg_read mg_done mg_output). Qed.
Lemma mg_nn : no_numbering rle_zlib mg_read.
Proof. exists 0. split; [lia|ans]. Qed.
Example C59_case_read : exists sorted recs f, Permutation (records_for (sources no_mopts mg_files) mg_s) sorted /\ Forall2 (record_kept rle_zlib mg_read dt_set) sorted recs /\
    translates standard_values standard_values f /\ reads_all rle_zlib mg_read 2 (as_read f None recs).
Proof. exact (mg_any_read mg_q mg_read mg_done mg_output mg_nn). Qed.

Lemma mg_any_names : forall q st2, merge_files rle_zlib no_mopts (s2z "o.gdx") 0 mg_files case_object = Done q -> output_read rle_zlib (s2z "o.gdx") 0 case_object q st2 ->
  listed rle_zlib mg_files st2 3.
Proof.
  intros q st2 R OR. destruct C55_case as (_ & FO & FW & CS & _). apply (C59_file_names rle_zlib _ _ _ _ _ _ _ R eq_refl FO FW CS mg_regular mg_distinct OR).
  - repeat constructor; apply well_formed_iff; vm_compute; reflexivity.
  - vm_compute. repeat constructor; cbn; intuition discriminate.
Qed.
Example C59_case_names : listed rle_zlib mg_files mg_read 3.
Proof. exact (mg_any_names mg_q mg_read mg_done mg_output). Qed.

Print Assumptions C59_merged_file.
Print Assumptions C59_merged_file_read.
Print Assumptions C59_file_names.
Print Assumptions C59_file_names_read.
