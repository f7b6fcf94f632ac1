(** * The domains that a file can hold

    gdxSymbolSetDomain stores numbers of symbols that are in the table, and
    gdxSymbolSetDomainX numbers of names that are in the table of domain names.  Both
    stay in range, in this session and in every file that was appended to: what
    gdxSymbolGetDomain and gdxSymbolGetDomainX answer for a file. *)
From Coq Require Import String.
From Verif Require Import Base Prim Values Records LinkedData StrHash IntMap Strings AStream BufStream State
  FileImage ApiCore ApiFile ApiWrite ApiRead Api FileFacts BlockFacts StreamFacts OpenFacts DicInv WriteInv WriteSteps Journal WriteCalls WriteTrace
  Footprint SessInv FileFlow Sessions Vocab PropErr Reopen ReadFacts ReadRecs ReadLoops Cases PropNames PropMeta PropDomain.
Open Scope Z_scope.
Open Scope list_scope.

Definition refs_in (k : Z) (dim : nat) (o : option (list Z)) : Prop :=
  forall l, o = Some l -> length l = dim /\ Forall (fun v => 0 <= v <= k) l.
Definition sym_refs (k kd : Z) (s : sym) : Prop := refs_in k (sy_dim s) (sy_doms s) /\ refs_in kd (sy_dim s) (sy_dstrs s).
Definition dom_refs (d : dic) : Prop :=
  (forall i e, znth (d_names d) i = Some e -> sym_refs (sym_count d) (zlen (d_dstrs d)) (snd e)) /\
  Forall (fun e => good_ident (fst e) = true) (d_dstrs d).

Lemma refs_more : forall k k' dim o, k <= k' -> refs_in k dim o -> refs_in k' dim o.
Proof. intros k k' dim o K H l E. destruct (H l E) as [A B]. split; [exact A|]. eapply Forall_impl; [|exact B]. cbn. intros. lia. Qed.
Lemma sym_refs_more : forall k kd k' kd' s, k <= k' -> kd <= kd' -> sym_refs k kd s -> sym_refs k' kd' s.
Proof. intros k kd k' kd' s A B [C D]. split; eapply refs_more; eassumption. Qed.

Definition sets_domain (c : call) : bool := match c with gdxSymbolSetDomain _ | gdxSymbolSetDomainX _ _ => true | _ => false end.
Lemma refs_step : forall c d d', sets_domain c = false -> datom c d d' -> dom_refs d -> dom_refs d'.
Proof.
  intros c d d' NS A [R G].
  assert (ED : d_dstrs d' = d_dstrs d). { destruct (dstrs_cases _ _ _ A) as [E|(n & ids & id & -> & _)]; [exact E|discriminate NS]. }
  unfold dom_refs. rewrite ED. split; [|exact G]. unfold sym_count in *.
  destruct (names_cases _ _ _ A) as [E|[(nm & s & _ & _ & _ & NW & E)|(n & e & s & ZN & ST & E)]]; rewrite E.
  - exact R.
  - intros i x Z. apply StrHash.znth_snoc in Z. assert (LE : zlen (d_names d) <= zlen (d_names d ++ [(nm, s)])) by (unfold zlen; rewrite app_length; lia).
    destruct Z as [Z|[_ ->]]; [eapply sym_refs_more; [| |exact (R _ _ Z)]; lia|]. cbn [snd].
    destruct NW as (_ & D1 & D2 & _). split; intros l H; congruence.
  - intros i x Z. rewrite zset_length. destruct (znth_zset _ _ _ _ _ Z) as [[-> ->]|[_ Z']]; [|exact (R _ _ Z')].
    pose proof (R _ _ ZN) as [R1 R2]. cbn [snd]. destruct ST as [(H1 & _ & _ & _ & _ & _ & H7 & H8 & _)|[(ids & v & -> & _)|[(ids & ns & -> & _)|(j & t & _ & _ & ->)]]]; try discriminate NS.
    + split; [rewrite H7, H1; exact R1|rewrite H8, H1; exact R2].
    + split; [exact R1|exact R2].
Qed.

Lemma upd_refs : forall n f d, (forall s, sym_refs (sym_count d) (zlen (d_dstrs d)) s -> sym_refs (sym_count d) (zlen (d_dstrs d)) (f s)) -> dom_refs d -> dom_refs (upd_sym n f d).
Proof.
  intros n f d F [R G]. unfold upd_sym. destruct (znth (d_names d) (n - 1)) as [e|] eqn:E; [|split; assumption].
  split; [|exact G]. unfold sym_count in *. cbn [d_names set_d_names d_dstrs]. rewrite zset_length. intros i x Z.
  destruct (znth_zset _ _ _ _ _ Z) as [[-> ->]|[_ Z']]; [apply F; exact (R _ _ E)|exact (R _ _ Z')].
Qed.
Lemma put_refs : forall n i v st, 0 <= v <= sym_count (g_dic st) -> dom_refs (g_dic st) ->
  dom_refs (g_dic (upd_dic (upd_sym n (fun s => set_sy_doms (option_map (set_nth i v) (sy_doms s)) s)) st)).
Proof.
  intros n i v st V R. unfold upd_dic, upd. cbn [g_dic set_g_dic]. apply upd_refs; [|exact R]. intros s [R1 R2]. split; [|exact R2].
  intros l H. cbn [set_sy_doms sy_doms sy_dim] in *. destruct (sy_doms s) as [l0|] eqn:E; [|discriminate H]. injection H as <-.
  destruct (R1 l0 eq_refl) as [A B]. split; [rewrite set_nth_length; exact A|apply set_nth_Forall; assumption].
Qed.
Lemma count_pos : forall d, 0 <= sym_count d.
Proof. intros d. unfold sym_count. apply zlen_nonneg. Qed.
Lemma error_dic : forall e st, g_dic (set_error e st) = g_dic st.
Proof. intros e st. apply set_error_fields. Qed.
Lemma wrk_dic : forall f st, g_dic (upd_wrk f st) = g_dic st.
Proof. reflexivity. Qed.
Lemma set_domains_refs : forall cur ids i res st go res' st', set_domains cur ids i res st = Done (go, res', st') -> dom_refs (g_dic st) -> dom_refs (g_dic st').
Proof.
  intros cur. induction ids as [|id ids IH]; intros i res st go res' st' H R; cbn [set_domains] in H; [injection H as _ _ <-; exact R|]. cbv zeta in H.
  pose proof (sym_find_range (g_dic st) id) as F. pose proof (count_pos (g_dic st)) as C.
  destruct (str_eqb id (s2z "*")); [eapply IH; [exact H|]; apply put_refs; [lia|exact R]|].
  destruct (Z.leb_spec (sym_find (g_dic st) id) 0) as [L|L]; [eapply IH; [exact H|]; apply put_refs; rewrite ?error_dic; [lia|exact R]|].
  destruct (dom_resolve _ _ _ _) as [x|]; [|discriminate H]. cbn [obind] in H. destruct x.
  all: first [ injection H as _ _ <-; rewrite error_dic; exact R
             | eapply IH; [exact H|]; apply put_refs; rewrite ?error_dic; [lia|exact R]
             | eapply IH; [exact H|]; destruct (_ && _); rewrite ?wrk_dic; apply put_refs; [lia|exact R| lia|exact R] ].
Qed.

Lemma strings_refs : forall ids l ns l', dom_strings ids l = (ns, l') -> Forall (fun e => good_ident (fst e) = true) l ->
  zlen l <= zlen l' /\ length ns = length ids /\ Forall (fun v => 0 <= v <= zlen l') ns /\ Forall (fun e => good_ident (fst e) = true) l'.
Proof.
  induction ids as [|id ids IH]; intros l ns l' H G; cbn [dom_strings] in H; [injection H as <- <-; repeat split; try lia; [constructor|exact G]|].
  destruct (good_ident id) eqn:GI; [destruct (sl_find true l id) as [n|] eqn:F|].
  - destruct (dom_strings ids l) as [ns1 l1] eqn:D. injection H as <- <-. destruct (IH _ _ _ D G) as (A & B & E & K). apply sl_find_range in F.
    repeat split; [exact A|cbn; lia|constructor; [lia|exact E]|exact K].
  - destruct (dom_strings ids (l ++ [(id, tt)])) as [ns1 l1] eqn:D. injection H as <- <-.
    destruct (IH _ _ _ D) as (A & B & E & K); [apply Forall_app; split; [exact G|constructor; [exact GI|constructor]]|].
    pose proof (zlen_nonneg l). unfold zlen in A. rewrite app_length in A. cbn [List.length] in A. unfold zlen in *.
    repeat split; [lia|cbn; lia|constructor; [lia|exact E]|exact K].
  - destruct (dom_strings ids l) as [ns1 l1] eqn:D. injection H as <- <-. destruct (IH _ _ _ D G) as (A & B & E & K). pose proof (zlen_nonneg l).
    repeat split; [exact A|cbn; lia|constructor; [lia|exact E]|exact K].
Qed.

Lemma znth_None_inv : forall {A} (l : list A) i, znth l i = None -> ~ (0 <= i < zlen l).
Proof. intros A l i H R. destruct (znth_exists l i R) as (a & E). congruence. Qed.

Section R.
Context (z : zlib).
Lemma exec_refs : forall c st r st', session_call c = true -> call_ok c -> exec z c st = Done (r, st') -> dom_refs (g_dic st) -> dom_refs (g_dic st').
Proof.
  intros c st r st' SC OK E R. destruct (sets_domain c) eqn:SD.
  - destruct c; try discriminate SD; cbn [exec] in E.
    + unfold symbol_set_domain, checked, refuse in E. destruct (mode_in _ _) in E; [|injection E as _ <-; try exact R; rewrite error_dic; exact R].
      destruct (w_cur _) as [|n|]; [injection E as _ <-; exact R| |discriminate E].
      destruct (get_sym _ _) as [s|] eqn:GS; [|discriminate E]. destruct (_ <? _)%nat; [discriminate E|]. cbv zeta in E.
      destruct (set_domains _ _ _ _ _) as [[[go res] st3]|] eqn:SDE; [|discriminate E]. cbn [obind] in E.
      assert (R3 : dom_refs (g_dic st3)).
      { eapply set_domains_refs; [exact SDE|]. unfold upd_dic, upd. cbn [g_dic set_g_dic]. destruct R as [R G]. unfold upd_sym.
        destruct (znth (d_names (g_dic st)) (n - 1)) as [e|] eqn:ZN; [|split; assumption]. split; [|exact G]. unfold sym_count in *. cbn [d_names set_d_names d_dstrs]. rewrite zset_length. intros i x Z.
        destruct (znth_zset _ _ _ _ _ Z) as [[-> ->]|[_ Z']]; [|exact (R _ _ Z')]. cbn [snd]. pose proof (R _ _ ZN) as [_ R2]. split; [|exact R2].
        intros l H. cbn [set_sy_doms sy_doms sy_dim] in *. injection H as <-. unfold get_sym in GS. rewrite ZN in GS. injection GS as <-. rewrite repeat_length. split; [reflexivity|].
        apply Forall_forall. intros v V. apply repeat_spec in V. subst v. pose proof (zlen_nonneg (d_names (g_dic st))). lia. }
      destruct (negb go); injection E as _ <-; exact R3.
    + unfold symbol_set_domain_x in E. cbv zeta in E. destruct (negb (d_nn _)); [discriminate E|]. destruct (negb _) in E; [injection E as _ <-; try exact R; rewrite error_dic; exact R|].
      destruct (get_sym _ _) as [s|] eqn:GS; [|discriminate E]. destruct (Nat.eqb _ _); [injection E as _ <-; exact R|].
      destruct (Nat.ltb_spec (List.length ids) (sy_dim s)) as [L|L]; [discriminate E|]. cbn [orb] in E. destruct (negb _) in E; [discriminate E|].
      destruct (dom_strings _ _) as [ns l] eqn:D. injection E as _ <-. unfold upd_dic, upd. cbn [g_dic set_g_dic].
      destruct R as [R G]. destruct (strings_refs _ _ _ _ D G) as (A & B & F & K). rewrite firstn_length in B.
      unfold upd_sym. cbn [d_names set_d_dstrs]. unfold get_sym in GS. destruct (znth (d_names (g_dic st)) _) as [e|] eqn:ZN in GS; [|discriminate GS]. rewrite ZN. injection GS as <-.
      split; [|exact K]. unfold sym_count in *. cbn [d_names set_d_names d_dstrs set_d_dstrs]. rewrite zset_length. intros i x Z.
      destruct (znth_zset _ _ _ _ _ Z) as [[-> ->]|[_ Z']]; [|eapply sym_refs_more; [| |exact (R _ _ Z')]; lia]. cbn [snd].
      pose proof (R _ _ ZN) as [R1 R2]. split; [exact R1|]. intros l1 H. cbn [set_sy_dstrs sy_dstrs sy_dim] in *. injection H as <-. split; [lia|exact F].
  - eapply (during_dic z dom_refs [c]); [|split; [cbn; rewrite SC; reflexivity|split; [constructor; [exact OK|constructor]|]]|exact R].
    + intros c' d d' [<-|[]]. apply refs_step. exact SD.
    + exists [r]. cbn [run]. rewrite E. reflexivity.
Qed.
Lemma during_refs : forall cs a b, during z cs a b -> dom_refs (g_dic a) -> dom_refs (g_dic b).
Proof.
  intros cs a b (SC & OK & rs & R). revert a rs SC OK R. induction cs as [|c cs IH]; intros a rs SC OK R Q; cbn [run] in R; [injection R as _ <-; exact Q|].
  destruct (exec z c a) as [[x s1]|] eqn:E; [|discriminate R]. cbn [obind] in R. destruct (run z cs s1) as [[xs s2]|] eqn:R2; [|discriminate R]. cbn [obind] in R. injection R as _ <-.
  cbn [forallb] in SC. apply andb_true_iff in SC. destruct SC as [S1 S2]. inversion OK; subst. eapply IH; [exact S2|assumption|exact R2|]. eapply exec_refs; eassumption.
Qed.
Lemma loaded_refs : forall d, dom_refs d -> dom_refs (loaded (contents_of d)).
Proof.
  intros d [R G]. assert (C : sym_count (loaded (contents_of d)) = sym_count d) by (unfold sym_count, zlen; cbn [loaded contents_of d_names c_syms]; rewrite map_length; reflexivity).
  assert (CD : zlen (d_dstrs (loaded (contents_of d))) = zlen (d_dstrs d)) by (unfold zlen; cbn [loaded contents_of d_dstrs c_dstrs]; rewrite !map_length; reflexivity).
  split.
  - rewrite C, CD. intros i e Z. destruct (PropNames.loaded_name _ _ _ Z) as (e' & Z' & ->). exact (R _ _ Z').
  - cbn [loaded contents_of d_dstrs c_dstrs]. rewrite map_map. rewrite Forall_map. exact G.
Qed.
Lemma created_refs : forall st, created z st -> dom_refs (g_dic st).
Proof.
  intros st C. apply created_dic in C. destruct C as (C & _ & _ & _ & _ & _ & _ & D & _). split; [|rewrite D; constructor].
  intros i e Z. rewrite C in Z. apply znth_Some in Z. unfold zlen in Z. cbn in Z. lia.
Qed.
Lemma writes_refs : forall name prod compr cs rs st, writes z name prod compr cs rs st -> dom_refs (g_dic st).
Proof.
  apply (writes_dic z dom_refs).
  - intros s0 n p c ra sa O RC. apply created_refs. exists s0, n, p, c, ra. auto.
  - intros np d _. apply loaded_refs.
  - exact during_refs.
Qed.
Lemma writing_refs : forall cs st, in_writing z cs st -> dom_refs (g_dic st).
Proof.
  intros cs st (sta & B & D). eapply during_refs; [exact D|].
  destruct B as [C|(name0 & prod & compr & cs0 & rs0 & st0 & F & name & W & CF & AP)]; [apply created_refs; exact C|].
  destruct (appending_facts _ _ _ _ _ _ _ _ _ _ W CF AP) as (E & _). rewrite E. apply loaded_refs. eapply writes_refs. exact W.
Qed.
Lemma reopened_refs : forall name prod compr cs rs st st2, reopened z name prod compr cs rs st st2 -> dom_refs (g_dic st2) /\ names_inv (g_dic st2) /\ d_nn (g_dic st2) = true.
Proof.
  intros name prod compr cs rs st st2 RO. destruct (reopened_tables _ _ _ _ _ _ _ _ RO) as (D & _). destruct RO as (W & _).
  rewrite D. split; [apply loaded_refs; eapply writes_refs; exact W|]. split; [|reflexivity].
  apply writes_in_writing, writing_names in W. destruct W as [A B]. split.
  - intros i j a b H1 H2 E. destruct (PropNames.loaded_name _ _ _ H1) as (a' & A1 & ->). destruct (PropNames.loaded_name _ _ _ H2) as (b' & B1 & ->). eapply A; eassumption.
  - intros i e H. destruct (PropNames.loaded_name _ _ _ H) as (a' & A1 & ->). exact (B _ _ A1).
Qed.

(** ** What the queries answer *)
Definition dom_entry (s : str) : Prop := s = s2z "*" \/ wf_ident s.
Lemma names_answer : forall look k l, (forall v, 1 <= v <= k -> exists s, look v = Some s /\ wf_ident s) -> Forall (fun v => 0 <= v <= k) l ->
  exists ss, dom_names look l = Done ss /\ length ss = length l /\ Forall dom_entry ss.
Proof.
  intros look k l H. induction 1 as [|v l V F (ss & E & L & FE)]; [exists []; repeat split; constructor|]. cbn [dom_names]. destruct (Z.eqb_spec v 0).
  - cbn [obind]. rewrite E. cbn [obind]. eexists. split; [reflexivity|]. split; [cbn; lia|]. constructor; [left; reflexivity|exact FE].
  - destruct (H v ltac:(lia)) as (s & -> & W). cbn [obind]. rewrite E. cbn [obind]. eexists. split; [reflexivity|]. split; [cbn; lia|]. constructor; [right; exact W|exact FE].
Qed.
Lemma symbol_names : forall st v, names_inv (g_dic st) -> 1 <= v <= sym_count (g_dic st) -> exists nm s, znth (d_names (g_dic st)) (v - 1) = Some (nm, s) /\ wf_ident nm.
Proof.
  intros st v [_ B] V. destruct (znth (d_names (g_dic st)) (v - 1)) as [[nm s]|] eqn:E.
  - exists nm, s. split; [reflexivity|]. apply good_ident_spec. exact (B _ _ E).
  - exfalso. apply znth_None_inv in E. unfold sym_count in V. lia.
Qed.
Lemma get_domain_x_ok : forall st n id dim typ, dom_refs (g_dic st) -> names_inv (g_dic st) -> d_nn (g_dic st) = true -> symbol z st n id dim typ ->
  exists c doms, answers z st (gdxSymbolGetDomainX n) (ret_s c doms) /\ 1 <= c <= 3 /\ zlen doms = dim /\ Forall dom_entry doms.
Proof.
  intros st n id dim typ [R G] NI NN SY. apply symbol_iff in SY. destruct SY as (s & ZN & -> & _). pose proof (R _ _ ZN) as [R1 R2]. cbn [snd] in R1, R2.
  unfold answers. cbn [exec]. unfold symbol_get_domain_x. cbv zeta. rewrite NN. cbn [negb]. unfold get_sym. rewrite ZN. cbn [option_map snd].
  destruct (sy_dstrs s) as [l|]; [|destruct (sy_doms s) as [l|]].
  - destruct (R2 l eq_refl) as [L F]. destruct (names_answer (fun k => option_map fst (znth (d_dstrs (g_dic st)) (k - 1))) (zlen (d_dstrs (g_dic st))) l) as (ss & E & LS & FE); [|exact F|].
    { intros v V. destruct (znth (d_dstrs (g_dic st)) (v - 1)) as [[a u]|] eqn:Z; [|exfalso; apply znth_None_inv in Z; lia]. exists a. split; [reflexivity|].
      apply good_ident_spec. exact (znth_Forall _ _ _ _ G Z). }
    rewrite E. cbn [obind]. exists 2, ss. split; [eauto|]. split; [lia|]. split; [unfold zlen; lia|exact FE].
  - destruct (R1 l eq_refl) as [L F]. destruct (names_answer (sym_name (g_dic st)) (sym_count (g_dic st)) l) as (ss & E & LS & FE); [|exact F|].
    { intros v V. destruct (symbol_names st v NI V) as (nm & s' & Z & W). exists nm. split; [unfold sym_name; rewrite Z; reflexivity|exact W]. }
    rewrite E. cbn [obind]. exists 3, ss. split; [eauto|]. split; [lia|]. split; [unfold zlen; lia|exact FE].
  - exists 1, (repeat (s2z "*") (sy_dim s)). split; [eauto|]. split; [lia|]. split; [unfold zlen; rewrite repeat_length; reflexivity|].
    apply Forall_forall. intros v V. apply repeat_spec in V. left. exact V.
Qed.
Lemma get_domain_ok : forall st n id dim typ, dom_refs (g_dic st) -> names_inv (g_dic st) -> d_nn (g_dic st) = true -> symbol z st n id dim typ ->
  exists nrs, answers z st (gdxSymbolGetDomain n) (ret_i 1 nrs) /\ zlen nrs = dim /\
    Forall (fun v => v = 0 \/ exists s d ty, symbol z st v s d ty) nrs.
Proof.
  intros st n id dim typ [R G] NI NN SY. apply symbol_iff in SY. destruct SY as (s & ZN & -> & _). pose proof (R _ _ ZN) as [R1 _]. cbn [snd] in R1.
  unfold answers. cbn [exec]. unfold symbol_get_domain. rewrite NN. cbn [negb]. unfold get_sym. rewrite ZN. cbn [option_map snd].
  destruct (sy_doms s) as [l|].
  - destruct (R1 l eq_refl) as [L F]. exists l. split; [eauto|]. split; [unfold zlen; lia|]. eapply Forall_impl; [|exact F]. cbn. intros v V.
    destruct (Z.eq_dec v 0) as [->|N]; [left; reflexivity|right]. destruct (symbol_names st v NI ltac:(lia)) as (nm & s' & Z & _). exists nm, (Z.of_nat (sy_dim s')), (sy_type s'). apply symbol_iff. exists s'. auto.
  - exists (repeat 0 (sy_dim s)). split; [eauto|]. split; [unfold zlen; rewrite repeat_length; reflexivity|]. apply Forall_forall. intros v V. apply repeat_spec in V. left. exact V.
Qed.
End R.

(** ** Files *)
Lemma file_domains : forall z name prod compr cs rs st st2 k, reopened z name prod compr cs rs st st2 -> symbols z st2 k ->
  forall n, 1 <= n <= k -> exists c doms, answers z st2 (gdxSymbolGetDomainX n) (ret_s c doms) /\ forall s, In s doms -> s = s2z "*" \/ wf_ident s.
Proof.
  intros z name prod compr cs rs st st2 k RO K n N. destruct (reopened_refs _ _ _ _ _ _ _ _ RO) as (R & NI & NN).
  destruct K as (u & s' & K). cbn [exec] in K. unfold system_info in K. injection K as <- _.
  destruct (symbol_names st2 n NI N) as (nm & s & Z & _). destruct (get_domain_x_ok z st2 n nm (Z.of_nat (sy_dim s)) (sy_type s) R NI NN) as (c & doms & A & _ & _ & F); [apply symbol_iff; exists s; auto|].
  exists c, doms. split; [exact A|]. rewrite Forall_forall in F. exact F.
Qed.
Lemma file_domain_numbers : forall z name prod compr cs rs st st2 n id dim typ nrs, reopened z name prod compr cs rs st st2 -> symbol z st2 n id dim typ ->
  answers z st2 (gdxSymbolGetDomain n) (ret_i 1 nrs) -> forall k, In k nrs -> 0 < k -> exists s d ty, symbol z st2 k s d ty.
Proof.
  intros z name prod compr cs rs st st2 n id dim typ nrs RO SY (s1 & A) k I K. destruct (reopened_refs _ _ _ _ _ _ _ _ RO) as (R & NI & NN).
  destruct (get_domain_ok z st2 n id dim typ R NI NN SY) as (nrs' & (s2 & A') & _ & F). rewrite A in A'. injection A' as <- _. rewrite Forall_forall in F. destruct (F k I) as [->|X]; [lia|exact X].
Qed.

(** ** Domains are sets *)

(** A domain is free, a set or an alias. *)
Definition dom_set (d : dic) (v : Z) : Prop :=
  v = 0 \/ exists e, znth (d_names d) (v - 1) = Some e /\ (sy_type (snd e) = dt_set \/ sy_type (snd e) = dt_alias).
Definition dom_sets (d : dic) : Prop := forall i e l, znth (d_names d) i = Some e -> sy_doms (snd e) = Some l -> Forall (dom_set d) l.
Lemma dom_set_grows : forall d d' v, names_grow d d' -> dom_set d v -> dom_set d' v.
Proof.
  intros d d' v G [->|(e & Z & T)]; [left; reflexivity|right]. destruct (G _ _ Z) as (e' & Z' & _ & _ & TY & _). exists e'. split; [exact Z'|]. rewrite TY. exact T.
Qed.
Lemma sets_step : forall c d d', sets_domain c = false -> datom c d d' -> dom_sets d -> dom_sets d'.
Proof.
  intros c d d' NS A R. pose proof (names_grow_step _ _ _ A) as GR. assert (M : forall l, Forall (dom_set d) l -> Forall (dom_set d') l).
  { intros l. apply Forall_impl. intros v. apply dom_set_grows. exact GR. }
  intros i x l Z D. apply M. destruct (names_cases _ _ _ A) as [E|[(nm & s & _ & _ & _ & NW & E)|(n & e & s & ZN & ST & E)]]; rewrite E in Z.
  - exact (R _ _ _ Z D).
  - apply StrHash.znth_snoc in Z. destruct Z as [Z|[_ ->]]; [exact (R _ _ _ Z D)|]. destruct NW as (_ & D1 & _). cbn [snd] in D. congruence.
  - destruct (znth_zset _ _ _ _ _ Z) as [[-> ->]|[_ Z']]; [|exact (R _ _ _ Z' D)]. cbn [snd] in D.
    destruct ST as [(_ & _ & _ & _ & _ & _ & H7 & _)|[(ids & v & -> & _)|[(ids & ns & -> & _)|(j & t & _ & _ & ->)]]]; try discriminate NS; [rewrite H7 in D|cbn [set_sy_comments sy_doms] in D]; exact (R _ _ _ ZN D).
Qed.
Lemma upd_grow : forall n f d, (forall s, sym_grows s (f s)) -> names_grow d (upd_sym n f d).
Proof.
  intros n f d F i e Z. unfold upd_sym. destruct (znth (d_names d) (n - 1)) as [x|] eqn:E; [|exists e; split; [exact Z|]; split; [reflexivity|apply sym_grows_refl]].
  cbn [d_names set_d_names]. destruct (Z.eq_dec i (n - 1)) as [->|N].
  - rewrite E in Z. injection Z as <-. exists (fst x, f (snd x)). split; [apply znth_zset_eq; eapply znth_Some; exact E|]. split; [reflexivity|apply F].
  - exists e. split; [rewrite znth_zset_neq by congruence; exact Z|]. split; [reflexivity|apply sym_grows_refl].
Qed.
Lemma upd_sets : forall n f d, (forall s, sym_grows s (f s)) -> (forall s l, sy_doms (f s) = Some l -> Forall (fun v => dom_set d v \/ exists l0, sy_doms s = Some l0 /\ In v l0) l) ->
  dom_sets d -> dom_sets (upd_sym n f d).
Proof.
  intros n f d F H R i x l Z D. apply (Forall_impl (P := dom_set d)); [intros v; apply dom_set_grows, upd_grow; exact F|].
  unfold upd_sym in Z. destruct (znth (d_names d) (n - 1)) as [e|] eqn:E; [|exact (R _ _ _ Z D)]. cbn [d_names set_d_names] in Z.
  destruct (znth_zset _ _ _ _ _ Z) as [[-> ->]|[_ Z']]; [|exact (R _ _ _ Z' D)]. cbn [snd] in D. eapply Forall_impl; [|exact (H _ _ D)]. cbn. intros v [V|(l0 & L & I)]; [exact V|].
  pose proof (R _ _ _ E L) as FA. rewrite Forall_forall in FA. exact (FA v I).
Qed.
Lemma doms_grow : forall v s, sym_grows s (set_sy_doms v s).
Proof. intros v s. repeat split. exists []. symmetry. apply app_nil_r. Qed.
Lemma put_sets : forall n i v st, dom_set (g_dic st) v -> dom_sets (g_dic st) ->
  dom_sets (g_dic (upd_dic (upd_sym n (fun s => set_sy_doms (option_map (set_nth i v) (sy_doms s)) s)) st)).
Proof.
  intros n i v st V R. unfold upd_dic, upd. cbn [g_dic set_g_dic]. apply upd_sets; [intros s; apply doms_grow| |exact R]. intros s l H. cbn [set_sy_doms sy_doms] in H.
  destruct (sy_doms s) as [l0|]; [|discriminate H]. injection H as <-. apply set_nth_Forall; [|left; exact V]. apply Forall_forall. intros w W. right. eauto.
Qed.
Lemma resolve_type : forall d b fuel n x, dom_resolve d b fuel n = Done x -> x <> DNotSet -> x <> DNoData -> dom_set d n.
Proof.
  intros d b fuel n x H N1 N2. destruct fuel as [|k]; [discriminate H|]. cbn [dom_resolve] in H. destruct (get_sym d n) as [o|] eqn:GS; [|discriminate H]. cbv zeta in H.
  apply get_sym_znth in GS. destruct GS as (nm & GS). right. exists (nm, o). split; [exact GS|]. cbn [snd].
  destruct (Z.eqb_spec (sy_type o) dt_set) as [T|T]; [left; exact T|]. destruct (Z.eqb_spec (sy_type o) dt_alias) as [U|U]; [right; exact U|].
  exfalso. rewrite Bool.andb_false_r in H. cbn [obind] in H. injection H as <-. apply N1. reflexivity.
Qed.
Lemma set_domains_sets : forall cur ids i res st go res' st', set_domains cur ids i res st = Done (go, res', st') -> dom_sets (g_dic st) -> dom_sets (g_dic st').
Proof.
  intros cur. induction ids as [|id ids IH]; intros i res st go res' st' H R; cbn [set_domains] in H; [injection H as _ _ <-; exact R|]. cbv zeta in H.
  assert (Z0 : dom_set (g_dic st) 0) by (left; reflexivity).
  destruct (str_eqb id (s2z "*")); [eapply IH; [exact H|]; apply put_sets; assumption|].
  destruct (Z.leb_spec (sym_find (g_dic st) id) 0) as [L|L]; [eapply IH; [exact H|]; apply put_sets; rewrite ?error_dic; assumption|].
  destruct (dom_resolve _ _ _ _) as [x|] eqn:DR; [|discriminate H]. cbn [obind] in H. pose proof (resolve_type _ _ _ _ _ DR) as T. destruct x.
  - injection H as _ _ <-. rewrite error_dic. exact R.
  - eapply IH; [exact H|]. destruct (_ && _); rewrite ?wrk_dic; (apply put_sets; [apply T; discriminate|exact R]).
  - eapply IH; [exact H|]. apply put_sets; [apply T; discriminate|exact R].
  - eapply IH; [exact H|]. apply put_sets; rewrite ?error_dic; assumption.
Qed.

Section S.
Context (z : zlib).
Lemma exec_sets : forall c st r st', session_call c = true -> call_ok c -> exec z c st = Done (r, st') -> dom_sets (g_dic st) -> dom_sets (g_dic st').
Proof.
  intros c st r st' SC OK E R. destruct (sets_domain c) eqn:SD.
  - destruct c; try discriminate SD; cbn [exec] in E.
    + unfold symbol_set_domain, checked, refuse in E. destruct (mode_in _ _) in E; [|injection E as _ <-; try exact R; rewrite error_dic; exact R].
      destruct (w_cur _) as [|n|]; [injection E as _ <-; exact R| |discriminate E].
      destruct (get_sym _ _) as [s|] eqn:GS; [|discriminate E]. destruct (_ <? _)%nat; [discriminate E|]. cbv zeta in E.
      destruct (set_domains _ _ _ _ _) as [[[go res] st3]|] eqn:SDE; [|discriminate E]. cbn [obind] in E.
      assert (R3 : dom_sets (g_dic st3)).
      { eapply set_domains_sets; [exact SDE|]. unfold upd_dic, upd. cbn [g_dic set_g_dic]. apply upd_sets; [intros x; apply doms_grow| |exact R].
        intros x l H. cbn [set_sy_doms sy_doms] in H. injection H as <-. apply Forall_forall. intros v V. apply repeat_spec in V. left. left. exact V. }
      destruct (negb go); injection E as _ <-; exact R3.
    + unfold symbol_set_domain_x in E. cbv zeta in E. destruct (negb (d_nn _)); [discriminate E|]. destruct (negb _) in E; [injection E as _ <-; try exact R; rewrite error_dic; exact R|].
      destruct (get_sym _ _) as [s|] eqn:GS; [|discriminate E]. destruct (Nat.eqb _ _); [injection E as _ <-; exact R|].
      destruct (_ || _) in E; [discriminate E|]. destruct (dom_strings _ _) as [ns l] eqn:D. injection E as _ <-. unfold upd_dic, upd. cbn [g_dic set_g_dic].
      apply upd_sets; [intros x; repeat split; exists []; symmetry; apply app_nil_r| |exact R]. intros x m H. cbn [set_sy_dstrs sy_doms] in H. apply Forall_forall. intros v V. right. eauto.
  - eapply (during_dic z dom_sets [c]); [|split; [cbn; rewrite SC; reflexivity|split; [constructor; [exact OK|constructor]|]]|exact R].
    + intros c' d d' [<-|[]]. apply sets_step. exact SD.
    + exists [r]. cbn [run]. rewrite E. reflexivity.
Qed.
Lemma during_sets : forall cs a b, during z cs a b -> dom_sets (g_dic a) -> dom_sets (g_dic b).
Proof.
  intros cs a b (SC & OK & rs & R). revert a rs SC OK R. induction cs as [|c cs IH]; intros a rs SC OK R Q; cbn [run] in R; [injection R as _ <-; exact Q|].
  destruct (exec z c a) as [[x s1]|] eqn:E; [|discriminate R]. cbn [obind] in R. destruct (run z cs s1) as [[xs s2]|] eqn:R2; [|discriminate R]. cbn [obind] in R. injection R as _ <-.
  cbn [forallb] in SC. apply andb_true_iff in SC. destruct SC as [S1 S2]. inversion OK; subst. eapply IH; [exact S2|assumption|exact R2|]. eapply exec_sets; eassumption.
Qed.
Lemma loaded_sets : forall d, dom_sets d -> dom_sets (loaded (contents_of d)).
Proof.
  intros d R i e l Z D. destruct (PropNames.loaded_name _ _ _ Z) as (e' & Z' & ->). eapply Forall_impl; [|exact (R _ _ _ Z' D)]. intros v [->|([nm s] & ZV & T)]; [left; reflexivity|].
  right. exists (nm, FileFacts.stored s). split; [apply loaded_back; exact ZV|exact T].
Qed.
Lemma created_sets : forall st, created z st -> dom_sets (g_dic st).
Proof. intros st C. apply created_dic in C. destruct C as (C & _). intros i e l Z. rewrite C in Z. apply znth_Some in Z. unfold zlen in Z. cbn in Z. lia. Qed.
Lemma writes_sets : forall name prod compr cs rs st, writes z name prod compr cs rs st -> dom_sets (g_dic st).
Proof.
  apply (writes_dic z dom_sets).
  - intros s0 n p c ra sa O RC. apply created_sets. exists s0, n, p, c, ra. auto.
  - intros np d _. apply loaded_sets.
  - exact during_sets.
Qed.
Lemma writing_sets : forall cs st, in_writing z cs st -> dom_sets (g_dic st).
Proof.
  intros cs st (sta & B & D). eapply during_sets; [exact D|].
  destruct B as [C|(name0 & prod & compr & cs0 & rs0 & st0 & F & name & W & CF & AP)]; [apply created_sets; exact C|].
  destruct (appending_facts _ _ _ _ _ _ _ _ _ _ W CF AP) as (E & _). rewrite E. apply loaded_sets. eapply writes_sets. exact W.
Qed.
Lemma reopened_sets : forall name prod compr cs rs st st2, reopened z name prod compr cs rs st st2 -> dom_sets (g_dic st2).
Proof. intros name prod compr cs rs st st2 RO. destruct (reopened_tables _ _ _ _ _ _ _ _ RO) as (D & _). destruct RO as (W & _). rewrite D. apply loaded_sets. eapply writes_sets. exact W. Qed.
Lemma domain_sets : forall st n nrs, dom_sets (g_dic st) -> answers z st (gdxSymbolGetDomain n) (ret_i 1 nrs) -> Forall (fun v => v = 0 \/ exists s d ty, symbol z st v s d ty /\ (ty = dt_set \/ ty = dt_alias)) nrs.
Proof.
  intros st n nrs R (s1 & A). cbn [exec] in A. unfold symbol_get_domain in A. destruct (negb _); [discriminate A|]. destruct (get_sym _ _) as [s|] eqn:GS; [|discriminate A].
  apply get_sym_znth in GS. destruct GS as (nm & GS). destruct (sy_doms s) as [l|] eqn:D; injection A as <- _.
  - eapply Forall_impl; [|exact (R _ _ _ GS D)]. intros v [->|([nv t] & Z & T)]; [left; reflexivity|right]. exists nv, (Z.of_nat (sy_dim t)), (sy_type t). split; [apply symbol_iff; exists t; auto|exact T].
  - apply Forall_forall. intros v V. apply repeat_spec in V. left. exact V.
Qed.
End S.
