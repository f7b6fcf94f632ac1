(** * Properties of the enquiry functions: C57, and what gdxClose forgets (C45)

    What the functions that only report something say about one another, and how long
    their answers stay the same. *)

From Coq Require Import String.
From Verif Require Import Base Prim Values Records LinkedData StrHash IntMap Strings AStream BufStream State
  FileImage ApiCore ApiFile ApiWrite ApiRead Api FileFacts BlockFacts StreamFacts OpenFacts DicInv WriteInv WriteTrace
  Footprint SessInv FileFlow Sessions Vocab Reopen Cases PropNames PropMeta PropChecks PropDisk PropTexts PropAcr.
Open Scope Z_scope.
Open Scope list_scope.

(** ** The switches *)

(** The last argument given to the call that [pick] selects, as 0 or 1; [d] if there was
    none. *)
Definition last_set (pick : call -> option Z) (d : Z) (cs : list call) : Z :=
  fold_left (fun b c => match pick c with Some v => if v =? 0 then 0 else 1 | None => b end) cs d.
Definition stores_domains (c : call) : option Z := match c with gdxStoreDomainSetsSet v => Some v | _ => None end.
Definition allows_bogus (c : call) : option Z := match c with gdxAllowBogusDomainsSet v => Some v | _ => None end.
Definition maps_to_nan (c : call) : option Z := match c with gdxMapAcronymsToNaNSet v => Some v | _ => None end.

Definition switches (st : gst) : Z * Z * Z := (b2z (e_storedom (g_env st)), b2z (e_bogus (g_env st)), b2z (e_acrnan (g_env st))).
Definition step (pick : call -> option Z) (c : call) (b : Z) : Z := match pick c with Some v => if v =? 0 then 0 else 1 | None => b end.

Lemma b2z_negb : forall v, b2z (negb (v =? 0)) = if v =? 0 then 0 else 1.
Proof. intros v. destruct (v =? 0); reflexivity. Qed.

(** One call, of whatever kind: the switch is what the call sets, or what it was. *)
Lemma switch_atom : forall (get : env -> bool) (pick : call -> option Z) v,
  (forall c f st, opt_keeps c (g_env st) (f (g_env st)) -> (exists w, pick c = Some w /\ get (f (g_env st)) = negb (w =? 0)) \/ get (f (g_env st)) = get (g_env st)) ->
  (forall n e, get (set_e_nextacr n e) = get e) ->
  forall c a b, get (g_env a) = v \/ (exists w, pick c = Some w /\ get (g_env a) = negb (w =? 0)) -> atom c a b ->
  get (g_env b) = v \/ (exists w, pick c = Some w /\ get (g_env b) = negb (w =? 0)).
Proof.
  intros get pick v HO HN c a b Q A. destruct A; try exact Q.
  - change (g_env (upd_env f st)) with (f (g_env st)). destruct (HO _ _ _ H1) as [X|X]; [right; exact X|rewrite X; exact Q].
  - change (g_env (set_g_dic d (upd_env (set_e_nextacr (e_nextacr (g_env st) + 1)) st))) with (set_e_nextacr (e_nextacr (g_env st) + 1) (g_env st)). rewrite HN. exact Q.
  - unfold set_error. destruct (n =? 0); exact Q.
Qed.
Lemma switch_call : forall z (get : env -> bool) (pick : call -> option Z),
  (forall c f st, opt_keeps c (g_env st) (f (g_env st)) -> (exists w, pick c = Some w /\ get (f (g_env st)) = negb (w =? 0)) \/ get (f (g_env st)) = get (g_env st)) ->
  (forall n e, get (set_e_nextacr n e) = get e) -> (forall d e, get (set_e_disk d e) = get e) -> (forall t u e, get (set_e_tab t (set_e_rtab u e)) = get e) ->
  pick gdxClose = None ->
  (forall c v st r st', pick c = Some v -> exec z c st = Done (r, st') -> get (g_env st') = negb (v =? 0)) ->
  forall c st r st', call_ok c -> exec z c st = Done (r, st') -> b2z (get (g_env st')) = step pick c (b2z (get (g_env st))).
Proof.
  intros z get pick HO HN HD HT PC PS c st r st' OK E. unfold step. destruct (pick c) as [v|] eqn:PK; [rewrite (PS _ _ _ _ _ PK E); apply b2z_negb|]. f_equal.
  assert (X : ok (fun s => get (g_env s) = get (g_env st)) (exec z c st)).
  { apply exec_one; try assumption; try reflexivity.
    - intros f s Q. exact Q.
    - intros f s Q. exact Q.
    - intros f s Q. exact Q.
    - intros f s Q. exact Q.
    - intros s Q. unfold reset_special. change (g_env (upd_env (fun e => set_e_tab default_tab (set_e_rtab default_tab e)) s)) with (set_e_tab default_tab (set_e_rtab default_tab (g_env s))). rewrite HT. exact Q.
    - intros s Q. unfold release. destruct (f_strm (g_fil s)) as [a|]; cbn [snd]; [|exact Q].
      match goal with |- get ?e = _ => change e with (set_e_disk (disk_put (e_disk (g_env s)) (f_name (g_fil s)) (as_final z a)) (g_env s)) end. rewrite HD. exact Q.
    - intros c' a b Q I A. assert (N : pick c' = None) by (destruct Q; subst; assumption).
      destruct (switch_atom get pick (get (g_env st)) HO HN c' a b (or_introl I) A) as [Y|(w & Y & _)]; [exact Y|congruence]. }
  rewrite E in X. exact X.
Qed.

Lemma switches_call : forall z c st r st', call_ok c -> exec z c st = Done (r, st') ->
  switches st' = (step stores_domains c (fst (fst (switches st))), step allows_bogus c (snd (fst (switches st))), step maps_to_nan c (snd (switches st))).
Proof.
  intros z c st r st' OK E. unfold switches. cbn [fst snd].
  rewrite (switch_call z e_storedom stores_domains) with (c := c) (st := st) (r := r), (switch_call z e_bogus allows_bogus) with (c := c) (st := st) (r := r),
    (switch_call z e_acrnan maps_to_nan) with (c := c) (st := st) (r := r); try reflexivity; try assumption.
  - intros c' f s (_ & _ & [(v & -> & H)|H]); [left; exists v; split; [reflexivity|exact H]|right; exact H].
  - intros [] v s r0 s' H X; try discriminate H. injection H as <-. cbn [exec] in X. injection X as _ <-. reflexivity.
  - intros c' f s (_ & [(v & -> & H)|H] & _); [left; exists v; split; [reflexivity|exact H]|right; exact H].
  - intros [] v s r0 s' H X; try discriminate H. injection H as <-. cbn [exec] in X. injection X as _ <-. reflexivity.
  - intros c' f s ([(v & -> & H)|H] & _ & _); [left; exists v; split; [reflexivity|exact H]|right; exact H].
  - intros [] v s r0 s' H X; try discriminate H. injection H as <-. cbn [exec] in X. injection X as _ <-. reflexivity.
Qed.

(** Whatever is done with an object, whichever files it opens and closes: the three
    switches are as they were set last, and before that as in a new object. *)
Theorem C57_switches : forall z disk cs rs st, Forall call_ok cs -> run z cs (new_object disk) = Done (rs, st) ->
  answers z st gdxStoreDomainSets (ret (last_set stores_domains 1 cs)) /\
  answers z st gdxAllowBogusDomains (ret (last_set allows_bogus 1 cs)) /\
  answers z st gdxMapAcronymsToNaN (ret (last_set maps_to_nan 0 cs)).
Proof.
  intros z disk cs rs st OK R.
  assert (X : forall cs s rs s', Forall call_ok cs -> run z cs s = Done (rs, s') ->
    switches s' = (last_set stores_domains (fst (fst (switches s))) cs, last_set allows_bogus (snd (fst (switches s))) cs, last_set maps_to_nan (snd (switches s)) cs)).
  { clear. induction cs as [|c cs IH]; intros s rs s' OK R; cbn [run] in R; [injection R as _ <-; unfold last_set; cbn [fold_left]; destruct (switches s) as [[? ?] ?]; reflexivity|].
    inversion OK as [|? ? O1 O2]; subst. destruct (exec z c s) as [[r s1]|] eqn:E; [|discriminate]. cbn [obind] in R. destruct (run z cs s1) as [[rs1 s2]|] eqn:E2; [|discriminate]. injection R as _ <-.
    rewrite (IH _ _ _ O2 E2), (switches_call _ _ _ _ _ O1 E). reflexivity. }
  specialize (X cs _ rs st OK R). unfold switches in X. cbn [fst snd] in X. injection X as X1 X2 X3.
  unfold answers. cbn [exec]. unfold store_domain_sets, allow_bogus_domains, map_acronyms_to_nan. rewrite X1, X2, X3. repeat split; eexists; reflexivity.
Qed.

(** ** The file *)

(** Version and compression of the file, as gdxFileInfo and gdxFileVersion report them, are
    the same from opening to closing. *)
Theorem C57_file_stays : forall z cs a b, during z cs a b -> same_answer z a b gdxFileInfo /\ same_answer z a b gdxFileVersion.
Proof.
  intros z cs a b D.
  assert (X : f_stat (g_fil b) = f_stat (g_fil a) /\ f_ver (g_fil b) = f_ver (g_fil a) /\ f_compr (g_fil b) = f_compr (g_fil a) /\ f_sysid (g_fil b) = f_sysid (g_fil a) /\ f_prod (g_fil b) = f_prod (g_fil a)).
  { refine (during_state z (fun s => f_stat (g_fil s) = f_stat (g_fil a) /\ f_ver (g_fil s) = f_ver (g_fil a) /\ f_compr (g_fil s) = f_compr (g_fil a) /\ f_sysid (g_fil s) = f_sysid (g_fil a) /\ f_prod (g_fil s) = f_prod (g_fil a)) cs a b _ _ D _).
    - intros c x y _ Q A. destruct A; try exact Q. unfold set_error. destruct (n =? 0); exact Q.
    - intros x Q. exact Q.
    - repeat split. }
  destruct X as (X1 & X2 & X3 & X4 & X5). unfold same_answer, answers. cbn [exec]. unfold file_info, file_version. cbv zeta. rewrite X1, X2, X3, X4, X5.
  split; intros r; split; intros (s & H); injection H as <- _; eauto.
Qed.
Lemma write_compr : forall bs a b, s_write bs a = Done b -> f_compr (g_fil b) = f_compr (g_fil a).
Proof. intros bs a b H. unfold s_write in H. destruct (f_strm (g_fil a)) as [s|]; [|discriminate]. destruct (as_write bs s); [|discriminate]. injection H as <-. reflexivity. Qed.
Lemma getpos_compr : forall z a p b, s_getpos z a = Done (p, b) -> f_compr (g_fil b) = f_compr (g_fil a).
Proof. intros z a p b H. unfold s_getpos in H. destruct (f_strm (g_fil a)) as [s|]; [|discriminate]. destruct (as_getpos z s) as [[q s']|]; [|discriminate]. injection H as _ <-. reflexivity. Qed.
Lemma fresh_compr : forall z name prod k st, f_compr (g_fil (fresh_session z name prod k st)) = k.
Proof. reflexivity. Qed.
Lemma ready_info : forall z mip nwp st, exec z gdxFileInfo (ready_session mip nwp st) = Done (ret_i 1 [7; f_compr (g_fil st)], ready_session mip nwp st).
Proof. reflexivity. Qed.
(** A file that is being created has the current version and the compression asked for. *)
Theorem C57_new_file : forall z name prod compr st r st', exec z (gdxOpenWriteEx name prod compr) st = Done (r, st') -> r_code r = 1 ->
  answers z st' gdxFileInfo (ret_i 1 [7; compr mod 2]).
Proof.
  intros z name prod compr st r st' E RC. change (open_write z name prod compr st = Done (r, st')) in E. unfold open_write in E. destruct (negb _); [injection E as <- _; discriminate RC|].
  destruct name as [|c0 name0]; [injection E as <- _; discriminate RC|]. unfold create_file in E.
  destruct (write_string prod) as [p|]; [|discriminate]. rewrite obind_done in E.
  destruct (s_write _ (fresh_session z (c0 :: name0) prod (compr mod 2) st)) as [s1|] eqn:W1; [|discriminate]. rewrite obind_done in E.
  destruct (s_getpos z s1) as [[mip s2]|] eqn:W2; [|discriminate]. rewrite obind_done in E.
  destruct (s_write index_room s2) as [s3|] eqn:W3; [|discriminate]. rewrite obind_done in E.
  destruct (s_getpos z s3) as [[nwp s4]|] eqn:W4; [|discriminate]. rewrite obind_done in E. assert (Q : st' = ready_session mip nwp s4) by congruence. clear E.
  assert (X : f_compr (g_fil s4) = compr mod 2) by (rewrite (getpos_compr _ _ _ _ W4), (write_compr _ _ _ W3), (getpos_compr _ _ _ _ W2), (write_compr _ _ _ W1); apply fresh_compr).
  rewrite Q. exists (ready_session mip nwp s4). rewrite ready_info, X. reflexivity.
Qed.
(** A file that was written and opened again tells the same. *)
Theorem C57_file_read : forall z name prod compr cs rs st st2, reopened z name prod compr cs rs st st2 ->
  answers z st2 gdxFileInfo (ret_i 1 [7; compr mod 2]).
Proof.
  intros z name prod compr cs rs st st2 RO. pose proof (reopened_tables _ _ _ _ _ _ _ _ RO) as (_ & _ & _ & _ & C2 & C1 & _).
  destruct RO as (W & M & r & st1 & F & rd & rm & E & DG & CF & SZ & CR & DR & RM & O).
  destruct (writes_jinv _ _ _ _ _ _ _ W) as (_ & _ & NE).
  destruct (saved_ok _ _ _ _ _ _ _ _ _ W M E) as (_ & _ & F' & m & G & RR & DG' & _ & _ & C). rewrite DG in DG'. injection DG' as <-.
  destruct (reopen_ok z _ _ _ _ _ _ _ _ (C CF SZ) CR NE DR RM) as (s & ops & _ & O'). rewrite O' in O. injection O as O.
  assert (S : f_stat (g_fil st2) = 1 /\ f_ver (g_fil st2) = 7) by (rewrite <- O; split; reflexivity).
  exists st2. cbn [exec]. unfold file_info. cbv zeta. rewrite (proj1 S), (proj2 S), C2, C1. reflexivity.
Qed.

(** ** After closing *)

(** gdxClose forgets everything that was known about the file: there are no symbols, labels,
    texts, acronyms or error records any more. *)
Theorem C57_closed : forall z st r st1, exec z gdxClose st = Done (r, st1) ->
  answers z st1 gdxFileInfo (ret_i 1 [0; 0]) /\ answers z st1 gdxSystemInfo (ret_i 1 [0; 0]) /\
  answers z st1 gdxDataErrorCount (ret 0) /\ answers z st1 gdxAcronymCount (ret 0) /\
  (forall n, n <> 0 -> answers z st1 (gdxSymbolInfo n) (ret_is 0 [-1; 0] [[]])) /\
  (forall name, name <> s2z "*" -> answers z st1 (gdxFindSymbol name) (ret 0)) /\
  (forall n, exists t, answers z st1 (gdxUMUelGet n) (ret_is 0 [-1] [t])) /\
  (forall n, answers z st1 (gdxGetElemText n) (ret_is 0 [0] [[]])).
Proof.
  intros z st r st1 H. cbn [exec] in *. unfold close in H.
  destruct (if mode_in (g_mode st) [fw_raw_data; fw_map_data; fw_str_data] then write_done z st else Done st) as [s1|]; [|discriminate]. cbn [obind] in H.
  destruct (if mode_in (g_mode s1) [fw_init] then finalize z s1 else Done s1) as [s2|]; [|discriminate]. cbn [obind] in H. assert (E : release z s2 = (r, st1)) by congruence. clear H.
  assert (F : f_stat (g_fil st1) = 0 /\ r_list (g_err st1) = None /\ exists k, g_dic st1 = set_d_uelcnt k empty_dic).
  { unfold release in E. injection E as _ <-. destruct s2 as [mo af en fi di er wr sl]. destruct fi as [? [?|] ? ? ? ? ? ? ? ? ? ? ? ?], wr; destruct w_cur; (split; [reflexivity|split; [reflexivity|eexists; reflexivity]]). }
  clear E. destruct F as (F1 & F2 & k & F3). unfold answers. cbn [exec].
  unfold file_info, system_info, data_error_count, acronym_count, symbol_info, find_symbol, um_uel_get, get_elem_text. cbv zeta. rewrite F1, F2, F3.
  split; [eexists; reflexivity|]. split; [eexists; reflexivity|]. split; [eexists; reflexivity|]. split; [eexists; reflexivity|].
  split; [intros n N; destruct (Z.eqb_spec n 0); [contradiction|]; change (d_names (set_d_uelcnt k empty_dic)) with (@nil (str * sym)); rewrite znth_nil; eexists; reflexivity|].
  split; [intros name N; destruct (str_eqb name (s2z "*")) eqn:Q; [apply str_eqb_spec in Q; contradiction|]; eexists; reflexivity|].
  split; [intros n; change (d_uels (set_d_uelcnt k empty_dic)) with (@nil (str * Z)); rewrite znth_nil; do 2 eexists; reflexivity|].
  intros n. eexists. reflexivity.
Qed.

(** ** Symbols and labels *)

(** The number of symbols that gdxSystemInfo reports is the number of the last symbol;
    gdxSymbolDim agrees with gdxSymbolInfo; number 0 is the universe. *)
Theorem C57_symbols : forall z st k labels, answers z st gdxSystemInfo (ret_i 1 [k; labels]) ->
  (forall n, 1 <= n <= k -> exists name dim typ cnt uinfo text,
     answers z st (gdxSymbolInfo n) (ret_is 1 [dim; typ] [name]) /\ answers z st (gdxSymbolDim n) (ret dim) /\
     answers z st (gdxSymbolInfoX n) (ret_is 1 [cnt; uinfo] [text]) /\ (dim = 0 -> cnt = 1)) /\
  (forall n, n < 0 \/ k < n -> answers z st (gdxSymbolInfo n) (ret_is 0 [-1; 0] [[]]) /\ answers z st (gdxSymbolDim n) (ret (-1)) /\
     answers z st (gdxSymbolInfoX n) (ret_is 0 [0; 0] [[]]) /\ answers z st (gdxSetHasText n) (ret 0)) /\
  answers z st (gdxSymbolInfo 0) (ret_is 1 [1; dt_set] [s2z "*"]) /\ answers z st (gdxSymbolDim 0) (ret 1) /\
  answers z st (gdxFindSymbol (s2z "*")) (ret_i 1 [0]).
Proof.
  intros z st k labels (s0 & H). cbn [exec] in H. unfold system_info, sym_count in H. injection H as HK _ _. unfold answers. cbn [exec].
  unfold symbol_info, symbol_dim, symbol_info_x, set_has_text, find_symbol, get_sym.
  split; [|split; [|split; [eexists; reflexivity|split; eexists; reflexivity]]].
  - intros n B. destruct (Z.eqb_spec n 0) as [->|N]; [lia|]. destruct (znth_exists (d_names (g_dic st)) (n - 1)) as ([nm s] & ->); [lia|]. cbn [option_map snd].
    exists nm, (Z.of_nat (sy_dim s)), (sy_type s), (if Nat.eqb (sy_dim s) 0 then 1 else sy_count s), (sy_uinfo s), (sy_expl s).
    split; [eexists; reflexivity|]. split; [eexists; reflexivity|]. split; [eexists; reflexivity|]. intros D. destruct (sy_dim s); [reflexivity|lia].
  - intros n B. destruct (Z.eqb_spec n 0) as [->|N]; [pose proof (zlen_nonneg (d_names (g_dic st))); lia|].
    destruct (znth (d_names (g_dic st)) (n - 1)) as [e|] eqn:E; [apply znth_Some in E; lia|]. cbn [option_map]. repeat split; eexists; reflexivity.
Qed.
(** Likewise for the labels. *)
Theorem C57_labels : forall z st symbols k, answers z st gdxSystemInfo (ret_i 1 [symbols; k]) ->
  (forall n, 1 <= n <= k -> exists s u, answers z st (gdxUMUelGet n) (ret_is 1 [u] [s])) /\
  (forall n, n < 1 \/ k < n -> exists t, answers z st (gdxUMUelGet n) (ret_is 0 [-1] [t])) /\
  (forall k' high, answers z st gdxUMUelInfo (ret_i 1 [k'; high]) -> k' = k).
Proof.
  intros z st symbols k (s0 & H). cbn [exec] in H. unfold system_info, uel_count in H. injection H as _ HK _. unfold answers. cbn [exec]. unfold um_uel_get. split; [|split].
  - intros n B. destruct (znth_exists (d_uels (g_dic st)) (n - 1)) as ([nm s] & ->); [lia|]. do 3 eexists. reflexivity.
  - intros n B. destruct (znth (d_uels (g_dic st)) (n - 1)) as [e|] eqn:E; [apply znth_Some in E; lia|]. do 2 eexists. reflexivity.
  - intros k' high (s & E). unfold um_uel_info in E. destruct (f_strm _); [|discriminate]. destruct (d_un _); [|discriminate]. injection E as E _ _. unfold uel_count in E. congruence.
Qed.

(** ** Error records *)

(** The error records are numbered from 1 to gdxDataErrorCount; gdxDataErrorRecord tells
    what gdxDataErrorRecordX tells, with all indices positive.  (Not while the labels are
    registered or the records of a symbol are read with labels or slices.) *)
Theorem C57_error_records : forall z st k, In (g_mode st) record_modes -> answers z st gdxDataErrorCount (ret k) ->
  (forall n, 1 <= n <= k -> exists keys vals, answers z st (gdxDataErrorRecordX n) (ret_iv 1 keys vals) /\
     answers z st (gdxDataErrorRecord n) (ret_iv 1 (List.map Z.abs keys) vals)) /\
  (forall n, n < 1 \/ k < n -> answers z st (gdxDataErrorRecordX n) (ret 0) /\ answers z st (gdxDataErrorRecord n) (ret 0)).
Proof.
  intros z st k M (s0 & H). cbn [exec] in H. unfold data_error_count in H. injection H as HK _.
  assert (MB : mode_in (g_mode st) record_modes = true) by (apply WriteSteps.mode_in_true; exact M). unfold record_modes in MB.
  unfold answers. cbn [exec]. unfold data_error_record, data_error_record_x, checked, fail_with. rewrite MB.
  destruct (r_list (g_err st)) as [l|]; split; intros n B.
  - destruct (znth_exists l (n - 1)) as ([ks vs] & ->); [lia|]. exists ks, vs. split; eexists; reflexivity.
  - destruct (znth l (n - 1)) as [e|] eqn:E; [apply znth_Some in E; lia|]. split; eexists; reflexivity.
  - lia.
  - split; eexists; reflexivity.
Qed.

(** ** Acronyms *)

(** The value of an acronym leads to its name: while a new file is written, for an entry
    with an index in range, gdxAcronymName of gdxAcronymValue of the index is the name that
    gdxAcronymGetInfo reports. *)
Theorem C57_acronym_names : forall z cs st k name a x, in_new_writing z cs st -> acronym z st k name a -> acronym_range a -> acronym_value z a x ->
  answers z st (gdxAcronymName x) (ret_s 1 [name]).
Proof.
  intros z cs st k name a x W A R V. pose proof (writing_acros _ _ _ W) as AI.
  assert (NN : d_nn (g_dic st) = true) by (destruct W as (st0 & C & D); apply (writing_nn z cs); exists st0; auto).
  destruct (C07_values z a R) as (x' & V' & IX). assert (x' = x).
  { destruct (V st) as (s1 & E1). destruct (V' st) as (s2 & E2). cbn [exec] in E1, E2. rewrite E1 in E2. injection E2 as <- _. reflexivity. }
  subst x'. destruct (IX st) as (s1 & E1). cbn [exec] in E1. unfold acronym_index in E1.
  destruct A as (text & s2 & A). cbn [exec] in A. unfold acronym_get_info in A. rewrite NN in A. cbn [negb] in A.
  destruct (znth (d_acros (g_dic st)) (k - 1)) as [e|] eqn:ZE; [|discriminate]. destruct ((zlen (ac_name e) <=? 63) && (zlen (ac_text e) <=? 255)) eqn:LN; [|discriminate].
  injection A as EA EN _ _. subst name a.
  exists st. cbn [exec]. unfold acronym_name. destruct (acro_of x) as [m|]; [|discriminate]. cbn [obind] in *. injection E1 as -> _.
  unfold acronym_range in R. destruct (Z.leb_spec (ac_map e) 0); [lia|]. rewrite NN. cbn [negb].
  unfold acro_entry. destruct (ReadRecs.acro_index_range (fun a => ac_map a =? ac_map e) (d_acros (g_dic st)) 0) as [X|(B & b & ZB & PB)].
  - exfalso. pose proof (acro_index_none (fun a => ac_map a =? ac_map e) (d_acros (g_dic st)) 0 (Z.le_refl 0)) as Y. rewrite X in Y. specialize (Y ltac:(lia) _ _ ZE). cbv beta in Y. lia.
  - rewrite Z.sub_0_r in ZB. rewrite ZB. assert (Q : acro_index (fun a => ac_map a =? ac_map e) (d_acros (g_dic st)) 0 = k - 1) by (eapply AI; [exact ZB|exact ZE|left; lia]).
    rewrite Q, ZE in ZB. injection ZB as <-. destruct (Z.leb_spec (zlen (ac_name e)) 255); [reflexivity|]. lia.
Qed.

(** ** The hypotheses are met *)

Definition ask_calls : list call :=
  [gdxStoreDomainSetsSet 0; gdxMapAcronymsToNaNSet 5; gdxOpenWriteEx (s2z "f.gdx") (s2z "a test") 1; gdxAllowBogusDomainsSet 0] ++ case_calls ++
  [gdxClose; gdxStoreDomainSetsSet 1; gdxOpenReadEx (s2z "f.gdx") 0; gdxDataReadRawStart 1; gdxDataReadRaw; gdxMapAcronymsToNaNSet 0].
Example C57_case_switches : exists st, answers rle_zlib st gdxStoreDomainSets (ret 1) /\ answers rle_zlib st gdxAllowBogusDomains (ret 0) /\ answers rle_zlib st gdxMapAcronymsToNaN (ret 0).
Proof.
  assert (X : exists rs st, run rle_zlib ask_calls (new_object []) = Done (rs, st)) by (do 2 eexists; vm_compute; reflexivity). destruct X as (rs & st & X). exists st.
  assert (K : Forall call_ok ask_calls) by (eapply all_ok; [apply call_okb_ok|vm_compute; reflexivity]).
  exact (C57_switches _ _ _ _ _ K X).
Qed.
Example C57_case_new_file : answers rle_zlib case_start gdxFileInfo (ret_i 1 [7; 1]).
Proof.
  assert (E : exec rle_zlib (gdxOpenWriteEx (s2z "f.gdx") (s2z "a test") 1) case_object = Done (ret_i 1 [0], case_start)) by (vm_compute; reflexivity).
  exact (C57_new_file _ _ _ _ _ _ _ E eq_refl).
Qed.
Example C57_case_file_stays : answers rle_zlib case_written gdxFileInfo (ret_i 1 [7; 1]).
Proof.
  assert (D : during rle_zlib case_calls case_start case_written) by (eapply during_test; [vm_compute; reflexivity|]; instantiate (1 := case_answers); vm_compute; reflexivity).
  pose proof C57_case_new_file as X. revert D X. generalize case_written case_start. intros b a D X. apply (proj1 (C57_file_stays _ _ _ _ D)). exact X.
Qed.
Example C57_case_file_read : answers rle_zlib case_read gdxFileInfo (ret_i 1 [7; 1]).
Proof. exact (C57_file_read _ _ _ _ _ _ _ _ case_reopened). Qed.
Example C57_case_closed : answers rle_zlib case_written gdxSystemInfo (ret_i 1 [7; 3]) /\ answers rle_zlib case_closed gdxSystemInfo (ret_i 1 [0; 0]).
Proof.
  split; [ans|]. assert (E : exec rle_zlib gdxClose case_written = Done (ret 0, case_closed)) by (vm_compute; reflexivity).
  exact (proj1 (proj2 (C57_closed _ _ _ _ E))).
Qed.
Example C57_case_symbols : answers rle_zlib case_read (gdxSymbolDim 6) (ret 2) /\ answers rle_zlib case_read (gdxSymbolDim 8) (ret (-1)).
Proof.
  assert (S : answers rle_zlib case_read gdxSystemInfo (ret_i 1 [7; 3])) by ans. assert (I6 : answers rle_zlib case_read (gdxSymbolInfo 6) (ret_is 1 [2; dt_par] [s2z "dist"])) by ans.
  revert S I6. generalize case_read. intros st S I6. destruct (C57_symbols _ _ _ _ S) as (A & B & _). split.
  - destruct (A 6) as (name & dim & typ & cnt & ui & text & X & Y & _); [lia|]. destruct X as (s1 & X), I6 as (s2 & I6). rewrite X in I6. injection I6 as -> _ _ _. exact Y.
  - apply (B 8). right. reflexivity.
Qed.
Example C57_case_labels : (exists s u, answers rle_zlib case_read (gdxUMUelGet 3) (ret_is 1 [u] [s])) /\ exists t, answers rle_zlib case_read (gdxUMUelGet 4) (ret_is 0 [-1] [t]).
Proof.
  assert (S : answers rle_zlib case_read gdxSystemInfo (ret_i 1 [7; 3])) by ans. revert S. generalize case_read. intros st S.
  destruct (C57_labels _ _ _ _ S) as (A & B & _). split; [apply A; lia|apply B; right; reflexivity].
Qed.
Example C57_case_errors : answers rle_zlib dc_t' (gdxDataErrorRecordX 2) (ret_iv 1 [-3] [dbl_1]) /\ answers rle_zlib dc_t' (gdxDataErrorRecord 2) (ret_iv 1 [3] [dbl_1]).
Proof.
  assert (M : In (g_mode dc_t') record_modes) by (apply WriteSteps.mode_in_true; vm_compute; reflexivity). assert (C : answers rle_zlib dc_t' gdxDataErrorCount (ret 2)) by ans.
  assert (X : answers rle_zlib dc_t' (gdxDataErrorRecordX 2) (ret_iv 1 [-3] [dbl_1])) by ans. revert M C X. generalize dc_t'. intros st M C X. split; [exact X|].
  destruct (proj1 (C57_error_records _ _ _ M C) 2) as (k & v & A & B); [lia|]. destruct X as (s1 & X), A as (s2 & A). rewrite X in A. injection A as <- <- _. exact B.
Qed.
Example C57_case_acronyms : exists x, acronym_value rle_zlib 7 x /\ answers rle_zlib case_written (gdxAcronymName x) (ret_s 1 [s2z "monday"]).
Proof.
  assert (R : acronym_range 7) by (split; vm_compute; congruence). destruct (C07_values rle_zlib 7 R) as (x & V & _). exists x. split; [exact V|].
  assert (A : acronym rle_zlib case_written 1 (s2z "monday") 7) by (eexists; ans). exact (C57_acronym_names _ _ _ _ _ _ _ case_new_writing A R V).
Qed.

Print Assumptions C57_switches.
Print Assumptions C57_file_stays.
Print Assumptions C57_new_file.
Print Assumptions C57_file_read.
Print Assumptions C57_closed.
Print Assumptions C57_symbols.
Print Assumptions C57_labels.
Print Assumptions C57_error_records.
Print Assumptions C57_acronym_names.
