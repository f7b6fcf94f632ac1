(** * Properties of symbol names, aliases, texts, comments and acronyms: C29, C30, C33, C34, C35, C40 *)

From Coq Require Import String.
From Verif Require WriteSteps.
From Verif Require Import Base Prim Values Records LinkedData StrHash IntMap Strings AStream BufStream State
  FileImage ApiCore ApiFile ApiWrite ApiRead Api FileFacts StreamFacts OpenFacts DicInv Footprint SessInv FileFlow Sessions Vocab Reopen Cases.
Open Scope Z_scope.
Open Scope list_scope.

(** Entry [n] of the symbol table, as gdxSymbolInfo reports it. *)
Definition symbol (z : zlib) (st : gst) (n : Z) (name : str) (dim typ : Z) : Prop :=
  n <> 0 /\ answers z st (gdxSymbolInfo n) (ret_is 1 [dim; typ] [name]).
(** The number of symbols, as gdxSystemInfo reports it. *)
Definition symbols (z : zlib) (st : gst) (k : Z) : Prop := exists labels, answers z st gdxSystemInfo (ret_i 1 [k; labels]).
(** Entry [n] of the acronym table, as gdxAcronymGetInfo reports it. *)
Definition acronym (z : zlib) (st : gst) (n : Z) (name : str) (ix : Z) : Prop :=
  exists text, answers z st (gdxAcronymGetInfo n) (ret_is 1 [ix] [name; text]).

Lemma symbol_iff : forall z st n name dim typ, symbol z st n name dim typ <->
  exists s, znth (d_names (g_dic st)) (n - 1) = Some (name, s) /\ dim = Z.of_nat (sy_dim s) /\ typ = sy_type s.
Proof.
  intros z st n name dim typ. unfold symbol, answers. cbn [exec]. unfold symbol_info. split.
  - intros (NZ & st' & H). destruct (Z.eqb_spec n 0); [contradiction|]. destruct (znth _ _) as [[nm s]|]; [|discriminate].
    injection H as <- <- <- _. eauto.
  - intros (s & E & -> & ->). split; [intros ->; discriminate|]. destruct (Z.eqb_spec n 0); [subst; discriminate|]. rewrite E. eauto.
Qed.
Lemma symbols_iff : forall z st k, symbols z st k <-> k = sym_count (g_dic st).
Proof.
  intros z st k. unfold symbols, answers. cbn [exec]. unfold system_info. split.
  - intros (l & st' & H). injection H as <- _ _. reflexivity.
  - intros ->. eauto.
Qed.
Lemma acronym_znth : forall z st n name ix, acronym z st n name ix ->
  exists a, znth (d_acros (g_dic st)) (n - 1) = Some a /\ name = ac_name a /\ ix = ac_map a.
Proof.
  intros z st n name ix (text & st' & H). cbn [exec] in H. unfold acronym_get_info in H. destruct (negb _); [discriminate|].
  destruct (znth _ _) as [a|]; [|discriminate]. destruct (_ && _); [|discriminate]. injection H as <- <- _ _. eauto.
Qed.

(** ** C29: symbol names *)

Lemma created_dic : forall z st, created z st -> d_names (g_dic st) = [] /\ d_uels (g_dic st) = [] /\ d_usr (g_dic st) = im_new /\
  d_status (g_dic st) = None /\ d_texts (g_dic st) = Some [([], 0)] /\ d_acros (g_dic st) = [] /\ d_filts (g_dic st) = [] /\ d_dstrs (g_dic st) = [] /\
  d_nn (g_dic st) = true /\ d_un (g_dic st) = true /\ d_dn (g_dic st) = true.
Proof.
  intros z st C. apply created_facts in C. destruct C as (_ & _ & _ & _ & _ & mt & uc & ->). repeat split.
Qed.

Lemma map_pair_znth : forall {A B C} (l : list (A * B)) (c : C) i e, znth (List.map (fun s => (s, c)) (List.map fst l)) i = Some e ->
  exists e', znth l i = Some e' /\ fst e = fst e' /\ snd e = c.
Proof.
  intros A B C l c i e H. unfold znth in *. destruct (i <? 0); [discriminate|]. rewrite map_map, nth_error_map in H.
  destruct (nth_error l (Z.to_nat i)) as [e'|]; [|discriminate]. injection H as <-. exists e'. auto.
Qed.
Lemma loaded_name : forall d i e, znth (d_names (loaded (contents_of d))) i = Some e -> exists e', znth (d_names d) i = Some e' /\ e = (fst e', FileFacts.stored (snd e')).
Proof.
  intros d i e H. cbn [d_names loaded contents_of c_syms] in H. unfold znth in *. destruct (i <? 0); [discriminate|].
  rewrite nth_error_map in H. destruct (nth_error (d_names d) (Z.to_nat i)) as [e'|]; [|discriminate]. injection H as <-. eauto.
Qed.
Lemma loaded_sym_inv : forall d n s, get_sym (loaded (contents_of d)) n = Some s -> exists s0, get_sym d n = Some s0 /\ s = FileFacts.stored s0.
Proof.
  intros d n s H. apply get_sym_znth in H. destruct H as (nm & H). destruct (loaded_name _ _ _ H) as ([a s0] & E & Q). injection Q as -> ->. exists s0. split; [|reflexivity].
  apply get_sym_znth. eauto.
Qed.
Lemma loaded_back : forall d n s0 nm, znth (d_names d) (n - 1) = Some (nm, s0) -> znth (d_names (loaded (contents_of d))) (n - 1) = Some (nm, FileFacts.stored s0).
Proof.
  intros d n s0 nm H. cbn [d_names loaded contents_of c_syms]. unfold znth in *. destruct (n - 1 <? 0); [discriminate|]. rewrite nth_error_map, H. reflexivity.
Qed.

Lemma writing_names : forall z cs st, in_writing z cs st -> names_inv (g_dic st).
Proof.
  intros z. apply (writing_dic z names_inv).
  - intros st C. apply created_dic in C. destruct C as (C & _). unfold names_inv. rewrite C. split; [apply distinct_nil|]. intros i e H. apply znth_Some in H. unfold zlen in H. cbn in H. lia.
  - intros np d _ [D G]. split.
    + intros i j a b H1 H2 E. destruct (loaded_name _ _ _ H1) as (a' & A1 & A2). destruct (loaded_name _ _ _ H2) as (b' & B1 & B2). subst a b. eapply D; [exact A1|exact B1|exact E].
    + intros i e H. destruct (loaded_name _ _ _ H) as (a' & A1 & A2). subst e. exact (G _ _ A1).
  - intros c d d'. apply names_step.
Qed.

(** After any write history the names are pairwise different ignoring case, and are
    identifiers of at most 63 characters. *)
Theorem C29_names_are_unique : forall z cs st i j a b da ta db tb, in_writing z cs st ->
  symbol z st i a da ta -> symbol z st j b db tb -> upper a = upper b -> i = j.
Proof.
  intros z cs st i j a b da ta db tb W A B E. apply writing_names in W. destruct W as [W _].
  apply symbol_iff in A, B. destruct A as (s & A & _), B as (t & B & _).
  assert (i - 1 = j - 1); [|lia]. eapply W; [exact A|exact B|]. apply same_text_spec. exact E.
Qed.
Theorem C29_names_are_identifiers : forall z cs st n name dim typ, in_writing z cs st -> symbol z st n name dim typ -> wf_ident name.
Proof.
  intros z cs st n name dim typ W A. apply writing_names in W. destruct W as [_ W]. apply symbol_iff in A. destruct A as (s & A & _).
  apply good_ident_spec. exact (W _ _ A).
Qed.

(** A lookup in any letter case finds exactly the symbol of that name. *)
Lemma sym_find_iff : forall d name n, distinct true (d_names d) -> 1 <= n ->
  (sym_find d name = n <-> exists nm s, znth (d_names d) (n - 1) = Some (nm, s) /\ upper nm = upper name).
Proof.
  intros d name n D N. unfold sym_find. split.
  - intros E. destruct (sl_find true (d_names d) name) as [k|] eqn:F; [|lia]. apply sl_find_Some in F.
    destruct F as ([nm s] & E1 & E2). replace (n - 1) with k by lia. exists nm, s. split; [exact E1|]. apply same_text_spec in E2. exact E2.
  - intros (nm & s & E & U). rewrite (sl_find_unique true (d_names d) name (n - 1) (nm, s) D E); [lia|]. apply same_text_spec. exact U.
Qed.
Lemma sym_find_none : forall d name, ~ (1 <= sym_find d name) <->
  forall n nm s, znth (d_names d) n = Some (nm, s) -> upper nm <> upper name.
Proof.
  intros d name. unfold sym_find. destruct (sl_find true (d_names d) name) as [k|] eqn:F.
  - apply sl_find_Some in F. destruct F as ([nm s] & E1 & E2). split; intros H.
    + exfalso. apply H. pose proof (znth_Some _ _ _ E1). lia.
    + exfalso. apply (H _ _ _ E1). apply same_text_spec in E2. exact E2.
  - split; intros H; [|lia]. intros n nm s E U. unfold sl_find in F. rewrite sl_find_from_None in F. specialize (F _ _ E). cbn [fst] in F.
    assert (X : same_text true nm name = true) by (apply same_text_spec; exact U). congruence.
Qed.
Theorem C29_names_are_found : forall z cs st name, in_writing z cs st -> name <> s2z "*" ->
  (forall n, 1 <= n -> answers z st (gdxFindSymbol name) (ret_i 1 [n]) <-> exists nm dim typ, symbol z st n nm dim typ /\ upper nm = upper name) /\
  ((exists r, answers z st (gdxFindSymbol name) r /\ r_code r = 0) <-> forall n nm dim typ, symbol z st n nm dim typ -> upper nm <> upper name).
Proof.
  intros z cs st name W NS. pose proof W as WW. apply writing_names in W. destruct W as [W _].
  assert (NN : d_nn (g_dic st) = true).
  { revert WW. apply (writing_dic z (fun d => d_nn d = true)); [intros st0 C; apply created_dic in C; tauto|reflexivity|].
    intros c d d' A <-. apply (flags_keep _ _ _ A). }
  assert (SE : str_eqb name (s2z "*") = false).
  { destruct (str_eqb name (s2z "*")) eqn:E; [|reflexivity]. apply str_eqb_spec in E. contradiction. }
  unfold answers. cbn [exec]. unfold find_symbol. rewrite SE, NN. split.
  - intros n N. transitivity (sym_find (g_dic st) name = n).
    + split; [intros (st' & H); injection H as _ <- _; reflexivity|intros ->]. replace (1 <=? n) with true by lia. eauto.
    + rewrite sym_find_iff by assumption. split.
      * intros (nm & s & E & U). exists nm, (Z.of_nat (sy_dim s)), (sy_type s). rewrite symbol_iff. eauto.
      * intros (nm & dim & typ & S & U). apply symbol_iff in S. destruct S as (s & E & _). eauto.
  - transitivity (~ (1 <= sym_find (g_dic st) name)).
    + split.
      * intros (r & (st' & H) & C). injection H as <- _. cbn in C. destruct (Z.leb_spec 1 (sym_find (g_dic st) name)); [discriminate|lia].
      * intros H. replace (1 <=? sym_find (g_dic st) name) with false by lia. eexists. split; [eauto|reflexivity].
    + rewrite sym_find_none. split.
      * intros H n nm dim typ S. apply symbol_iff in S. destruct S as (s & E & _). eapply H. exact E.
      * intros H n nm s E. apply (H (n + 1) nm (Z.of_nat (sy_dim s)) (sy_type s)). apply symbol_iff. exists s. replace (n + 1 - 1) with n by lia. auto.
Qed.

(** Symbols are never lost or changed in name, dimension or type, and only the calls that
    are given a name add one. *)
Lemma during_grow : forall z cs a b, during z cs a b -> names_grow (g_dic a) (g_dic b).
Proof.
  intros z cs a b D. eapply (during_dic z (fun d => names_grow (g_dic a) d)); [|exact D|apply names_grow_refl].
  intros c d d' _ A G. eapply names_grow_trans; [exact G|]. eapply names_grow_step. exact A.
Qed.
Theorem C29_symbols_stay : forall z cs a b n name dim typ, during z cs a b -> symbol z a n name dim typ -> symbol z b n name dim typ.
Proof.
  intros z cs a b n name dim typ D S. apply during_grow in D. rewrite symbol_iff in *. destruct S as (s & E & -> & ->).
  destruct (D _ _ E) as ([nm s'] & E' & F & K). cbn [fst snd] in *. subst nm. exists s'. split; [exact E'|].
  destruct K as (K1 & K2 & _). rewrite K1, K2. auto.
Qed.
Theorem C29_only_named_calls_add : forall z cs a b k, during z cs a b -> Forall (fun c => names_of c = []) cs -> symbols z a k -> symbols z b k.
Proof.
  intros z cs a b k D F S. rewrite symbols_iff in *. subst k. unfold sym_count.
  eapply (during_dic z (fun d => zlen (d_names (g_dic a)) = zlen (d_names d))); [|exact D|reflexivity].
  intros c d d' I A ->. rewrite Forall_forall in F. specialize (F c I).
  destruct (names_cases _ _ _ A) as [->|[(name & s & N & _)|(n & e & s & _ & _ & ->)]]; [reflexivity|rewrite F in N; destruct N|].
  symmetry. apply zset_length.
Qed.

(** *** Starting a symbol *)

Definition starting (c : call) (name text : str) (dim typ uinfo : Z) : Prop :=
  c = gdxDataWriteRawStart name text dim typ uinfo \/ (exists lo hi, c = gdxDataWriteRawStartKeyBounds name text dim typ uinfo lo hi) \/
  c = gdxDataWriteMapStart name text dim typ uinfo \/ c = gdxDataWriteStrStart name text dim typ uinfo.

Definition fresh_symbol (name text : str) (dim typ uinfo : Z) (s : sym) : Prop :=
  sy_dim s = Z.to_nat dim /\ sy_type s = typ /\ sy_uinfo s = uinfo /\ sy_expl s = make_good (assign_expl text) /\ sy_comments s = [] /\
  sy_doms s = None /\ sy_dstrs s = None /\ sy_count s = 0.
Definition may_start (st : gst) (name : str) (dim typ : Z) : Prop :=
  g_mode st = fw_init /\ (1 <=? sym_find (g_dic st) name) = false /\ (0 <=? acro_named name (d_acros (g_dic st))) = false /\
  good_ident name = true /\ 0 <= dim <= 20 /\ 0 <= typ <= dt_equ.

Lemma prepare_cases : forall z name text dim typ uinfo st b st', prepare_symbol_write z name text dim typ uinfo st = Done (b, st') ->
  (b = false /\ g_dic st' = g_dic st /\ r_tot (g_err st') = r_tot (g_err st) + 1 /\ ~ may_start st name dim typ) \/
  (b = true /\ may_start st name dim typ /\ w_cur (g_wrk st') = CSym (sym_count (g_dic st')) /\
   exists s, fresh_symbol name text dim typ uinfo s /\ g_dic st' = set_d_names (d_names (g_dic st) ++ [(name, s)]) (g_dic st)).
Proof.
  intros z name text dim typ uinfo st b st' H. unfold prepare_symbol_write in H. cbv zeta in H.
  change (g_mode (upd_wrk _ _)) with (g_mode st) in H.
  destruct (mode_in (g_mode st) [fw_init]) eqn:MI; cbn [negb] in H.
  2: { injection H as <- <-. left. repeat split. intros (C & _). rewrite C in MI. discriminate. }
  assert (M1 : g_mode st = fw_init). { unfold mode_in in MI. destruct (in_dec _ _ _) as [[<-|[]]|]; [reflexivity|discriminate]. }
  unfold good_new_symbol in H. change (g_dic (upd_wrk _ (upd_err _ st))) with (g_dic st) in H.
  destruct (1 <=? sym_find (g_dic st) name) eqn:E1.
  { injection H as <- <-. left. repeat split. intros (_ & C & _). congruence. }
  destruct (0 <=? acro_named name (d_acros (g_dic st))) eqn:E2.
  { injection H as <- <-. left. repeat split. intros (_ & _ & C & _). congruence. }
  destruct (good_ident name) eqn:E3.
  2: { injection H as <- <-. left. repeat split. intros (_ & _ & _ & C & _). congruence. }
  cbn [negb] in H. destruct ((0 <=? dim) && (dim <=? 20)) eqn:E4; cbn [negb] in H.
  2: { injection H as <- <-. left. repeat split. intros (_ & _ & _ & _ & C & _). lia. }
  destruct ((0 <=? typ) && (typ <=? dt_equ)) eqn:E5; cbn [negb] in H.
  2: { injection H as <- <-. left. repeat split. intros (_ & _ & _ & _ & _ & C). lia. }
  unfold s_setcomp in H. destruct (f_strm _) as [s0|]; [|discriminate]. cbn [obind] in H.
  injection H as <- <-. right.
  split; [reflexivity|]. split; [repeat split; try assumption; lia|]. split; [reflexivity|]. eexists. split; [|reflexivity].
  repeat split.
Qed.

Lemma zset_last : forall {A} (l : list A) a b, zset (zlen l) b (l ++ [a]) = l ++ [b].
Proof.
  intros A l a b. unfold zset, zlen. destruct (Z.ltb_spec (Z.of_nat (length l)) 0); [lia|]. rewrite Nat2Z.id.
  induction l as [|x l IH]; cbn [length app set_nth]; [reflexivity|]. f_equal. apply IH. cbn. lia.
Qed.
Lemma upd_sym_last : forall d l name s f, upd_sym (zlen l + 1) f (set_d_names (l ++ [(name, s)]) d) = set_d_names (l ++ [(name, f s)]) d.
Proof.
  intros d l name s f. unfold upd_sym. cbn [d_names set_d_names]. replace (zlen l + 1 - 1) with (zlen l) by lia.
  rewrite znth_app_r by lia. rewrite Z.sub_diag. cbn [znth fst snd]. change (znth [(name, s)] 0) with (Some (name, s)). cbn [fst snd].
  rewrite zset_last. destruct d. reflexivity.
Qed.
Lemma init_dic : forall z k st st' d l name s, init_do_write z k st = Done st' -> w_cur (g_wrk st) = CSym (sym_count (g_dic st)) ->
  g_dic st = set_d_names (l ++ [(name, s)]) d -> exists p, g_dic st' = set_d_names (l ++ [(name, set_sy_pos p s)]) d.
Proof.
  intros z k st st' d l name s H C E. unfold init_do_write in H. cbv zeta in H.
  destruct (s_setpos z _ st) as [s1|] eqn:W1; [|discriminate]. cbn [obind] in H. apply s_setpos_sbf in W1. destruct W1 as (f1 & ->).
  unfold cur_sym in H. change (w_cur (g_wrk (set_g_fil f1 st))) with (w_cur (g_wrk st)) in H. rewrite C in H.
  destruct (get_sym _ _) as [s0|]; [|discriminate]. cbn [obind] in H. apply s_write_sbf in H. destruct H as (f2 & ->).
  exists (f_nwp (g_fil st)). change (upd_sym (sym_count (g_dic st)) (set_sy_pos (f_nwp (g_fil st))) (g_dic st) = set_d_names (l ++ [(name, set_sy_pos (f_nwp (g_fil st)) s)]) d). rewrite E.
  replace (sym_count (set_d_names (l ++ [(name, s)]) d)) with (zlen l + 1); [apply upd_sym_last|].
  unfold sym_count. cbn [d_names set_d_names]. unfold zlen. rewrite app_length. cbn. lia.
Qed.

Lemma start_effect : forall z c name text dim typ uinfo st r st', starting c name text dim typ uinfo -> exec z c st = Done (r, st') ->
  (r = ret 0 /\ g_dic st' = g_dic st /\ r_tot (g_err st') = r_tot (g_err st) + 1 /\ ~ may_start st name dim typ) \/
  (r = ret 1 /\ may_start st name dim typ /\
   exists s, fresh_symbol name text dim typ uinfo s /\ g_dic st' = set_d_names (d_names (g_dic st) ++ [(name, s)]) (g_dic st)).
Proof.
  intros z c name text dim typ uinfo st r st' S E.
  assert (PREP : forall k, (do (ok, st) <- prepare_symbol_write z name text dim typ uinfo st ;; if negb ok then Done (ret 0, st) else k st) = Done (r, st') ->
    (forall s1, k s1 = Done (r, st') -> w_cur (g_wrk s1) = CSym (sym_count (g_dic s1)) -> forall d l s, g_dic s1 = set_d_names (l ++ [(name, s)]) d ->
       r = ret 1 /\ exists p, g_dic st' = set_d_names (l ++ [(name, set_sy_pos p s)]) d) ->
    (r = ret 0 /\ g_dic st' = g_dic st /\ r_tot (g_err st') = r_tot (g_err st) + 1 /\ ~ may_start st name dim typ) \/
    (r = ret 1 /\ may_start st name dim typ /\
     exists s, fresh_symbol name text dim typ uinfo s /\ g_dic st' = set_d_names (d_names (g_dic st) ++ [(name, s)]) (g_dic st))).
  { intros k H K. destruct (prepare_symbol_write z name text dim typ uinfo st) as [[b s1]|] eqn:P; [|discriminate]. cbn [obind] in H.
    apply prepare_cases in P. destruct P as [(-> & P1 & P2 & P3)|(-> & P1 & P2 & s & P3 & P4)]; cbn [negb] in H.
    - injection H as <- <-. left. auto.
    - right. destruct (K _ H P2 _ _ _ P4) as (-> & p & K2). split; [reflexivity|]. split; [exact P1|]. exists (set_sy_pos p s).
      split; [|exact K2]. destruct P3 as (Q1 & Q2 & Q3 & Q4 & Q5 & Q6 & Q7 & Q8). repeat split; assumption. }
  assert (SP : forall s, set_sy_pos (sy_pos s) s = s) by (intros; destruct s; reflexivity).
  destruct S as [->|[(lo & hi & ->)|[->| ->]]]; cbn [exec] in E.
  - unfold write_raw_start in E. eapply PREP; [exact E|]. cbv beta. intros s1 H C d l s D.
    destruct (init_do_write z (-1) _) as [s2|] eqn:I; [|discriminate]. cbn [obind] in H. injection H as <- <-. split; [reflexivity|].
    change (g_dic (set_g_mode _ s2)) with (g_dic s2). eapply init_dic; [exact I|exact C|exact D].
  - unfold write_raw_start_bounds in E. eapply PREP; [exact E|]. cbv beta. intros s1 H C d l s D. cbv zeta in H. destruct (_ || _); [discriminate|].
    destruct (init_do_write z (-1) _) as [s2|] eqn:I; [|discriminate]. cbn [obind] in H. injection H as <- <-. split; [reflexivity|].
    change (g_dic (set_g_mode _ s2)) with (g_dic s2). eapply init_dic; [exact I|exact C|exact D].
  - unfold write_map_start in E. eapply PREP; [exact E|]. cbv beta. intros s1 H C d l s D. injection H as <- <-. split; [reflexivity|].
    exists (sy_pos s). rewrite SP; exact D.
  - unfold write_str_start in E. eapply PREP; [exact E|]. cbv beta. intros s1 H C d l s D. injection H as <- <-. split; [reflexivity|].
    exists (sy_pos s). rewrite SP; exact D.
Qed.

(** A call that starts a symbol is accepted exactly when the object is ready for it, no
    symbol and no acronym of the object has that name in any letter case, the name is an
    identifier, and dimension and type are in range.  If it is refused, an error is
    counted and the symbols are as before; if accepted, the symbol is added behind them. *)
Definition acronym_names (st : gst) : list str := List.map ac_name (d_acros (g_dic st)).

Lemma acro_named_none : forall name l, (0 <=? acro_named name l) = false <-> forall nm, In nm (List.map ac_name l) -> upper nm <> upper name.
Proof.
  intros name l. unfold acro_named.
  assert (X : forall l k, 0 <= k -> (0 <=? acro_index (fun a => same_text true (ac_name a) name) l k) = false <->
                forall nm, In nm (List.map ac_name l) -> upper nm <> upper name); [|apply X; lia].
  clear. induction l as [|a l IH]; intros k K; cbn [acro_index List.map].
  - split; [intros _ a []|reflexivity].
  - destruct (same_text true (ac_name a) name) eqn:S.
    + split; [intros H; lia|]. intros H. exfalso. apply (H _ (or_introl eq_refl)). apply same_text_spec in S. exact S.
    + rewrite IH by lia. split; intros H b B.
      * destruct B as [<-|B]; [|apply H; exact B]. intros U. assert (Y : same_text true (ac_name a) name = true) by (apply same_text_spec; exact U). congruence.
      * apply H. right. exact B.
Qed.

Definition ready (st : gst) : Prop := g_mode st = fw_init.
Definition acceptable (z : zlib) (st : gst) (name : str) (dim typ : Z) : Prop :=
  (forall n nm d t, symbol z st n nm d t -> upper nm <> upper name) /\ (forall nm, In nm (acronym_names st) -> upper nm <> upper name) /\ wf_ident name /\ 0 <= dim <= 20 /\ 0 <= typ <= dt_equ.

Lemma acceptable_iff : forall z st name dim typ, may_start st name dim typ <-> ready st /\ acceptable z st name dim typ.
Proof.
  intros z st name dim typ. unfold may_start, ready, acceptable. rewrite acro_named_none, good_ident_spec.
  assert (X : (1 <=? sym_find (g_dic st) name) = false <-> forall n nm d t, symbol z st n nm d t -> upper nm <> upper name).
  { transitivity (~ 1 <= sym_find (g_dic st) name); [lia|]. rewrite sym_find_none. split.
    - intros H n nm d t S. apply symbol_iff in S. destruct S as (s & E & _). eapply H. exact E.
    - intros H n nm s E. apply (H (n + 1) nm (Z.of_nat (sy_dim s)) (sy_type s)). apply symbol_iff. exists s. replace (n + 1 - 1) with n by lia. auto. }
  unfold acronym_names. tauto.
Qed.

Theorem C29_starting_a_symbol : forall z c name text dim typ uinfo st r st' k e,
  starting c name text dim typ uinfo -> exec z c st = Done (r, st') -> symbols z st k -> answers z st gdxErrorCount (ret e) ->
  (r_code r = 1 <-> ready st /\ acceptable z st name dim typ) /\
  (forall n, 1 <= n <= k -> same_answer z st st' (gdxSymbolInfo n)) /\
  (r_code r = 1 -> symbols z st' (k + 1) /\ symbol z st' (k + 1) name dim typ) /\
  (r_code r <> 1 -> r_code r = 0 /\ symbols z st' k /\ (forall n, same_answer z st st' (gdxSymbolInfo n)) /\ answers z st' gdxErrorCount (ret (e + 1))).
Proof.
  intros z c name text dim typ uinfo st r st' k e S E K R. rewrite <- acceptable_iff. rewrite !symbols_iff in *. subst k.
  destruct R as (st1 & R). injection R as R _. unfold sym_count in *.
  destruct (start_effect _ _ _ _ _ _ _ _ _ _ S E) as [(-> & D & T & NM)|(-> & MS & s & F & D)]; cbn [r_code ret].
  - split; [split; [discriminate|tauto]|]. unfold same_answer, answers. cbn [exec]. unfold symbol_info, error_count. rewrite D.
    assert (X : forall n r0, (exists s', (if n =? 0 then Done (ret_is 1 [1; dt_set] [s2z "*"], st) else match znth (d_names (g_dic st)) (n - 1) with
         Some (name, s) => Done (ret_is 1 [Z.of_nat (sy_dim s); sy_type s] [name], st) | None => Done (ret_is 0 [-1; dt_set] [[]], st) end) = Done (r0, s')) <->
       (exists s', (if n =? 0 then Done (ret_is 1 [1; dt_set] [s2z "*"], st') else match znth (d_names (g_dic st)) (n - 1) with
         Some (name, s) => Done (ret_is 1 [Z.of_nat (sy_dim s); sy_type s] [name], st') | None => Done (ret_is 0 [-1; dt_set] [[]], st') end) = Done (r0, s'))).
    { intros n r0. destruct (n =? 0); [|destruct (znth _ _) as [[a b]|]]; split; intros (s' & H); injection H as <- _; eauto. }
    split; [intros n _; apply X|]. split; [discriminate|]. intros _. split; [reflexivity|]. split; [congruence|]. split; [exact X|].
    exists st'. congruence.
  - split; [tauto|]. split; [|split; [|congruence]].
    + intros n B. unfold same_answer, answers. cbn [exec]. unfold symbol_info. rewrite D. cbn [d_names set_d_names].
      rewrite znth_app_l by lia. intros r0. destruct (n =? 0); [|destruct (znth _ _) as [[a b]|]]; split; intros (s' & H); injection H as <- _; eauto.
    + intros _. rewrite symbol_iff. rewrite D. cbn [d_names set_d_names]. split; [unfold zlen; rewrite app_length; cbn; lia|].
      exists s. destruct F as (F1 & F2 & _). rewrite F1, F2. destruct MS as (_ & _ & _ & _ & B & _). split; [|split; [lia|reflexivity]].
      apply znth_snoc. right. split; [lia|reflexivity].
Qed.

(** ** C30: aliases *)

(** The user information of a symbol, as gdxSymbolInfoX reports it; for an alias it is
    the number of the symbol it stands for, zero for the universe. *)
Definition user_info (z : zlib) (st : gst) (n u : Z) : Prop := exists cnt expl, answers z st (gdxSymbolInfoX n) (ret_is 1 [cnt; u] [expl]).
Definition alias_of (z : zlib) (st : gst) (n k : Z) : Prop := (exists name dim, symbol z st n name dim dt_alias) /\ user_info z st n k.
Inductive resolves (z : zlib) (st : gst) : Z -> Z -> Prop :=
| R_symbol : forall n name dim typ, symbol z st n name dim typ -> typ <> dt_alias -> resolves z st n n
| R_universe : forall n, alias_of z st n 0 -> resolves z st n 0
| R_alias : forall n k m, alias_of z st n k -> k <> 0 -> resolves z st k m -> resolves z st n m.

Lemma user_info_iff : forall z st n u, n <> 0 -> user_info z st n u <-> exists s, get_sym (g_dic st) n = Some s /\ u = sy_uinfo s.
Proof.
  intros z st n u N. unfold user_info, answers. cbn [exec]. unfold symbol_info_x. destruct (Z.eqb_spec n 0); [contradiction|]. split.
  - intros (cnt & expl & st' & H). destruct (get_sym _ _) as [s|]; [|discriminate]. injection H as _ <- _ _. eauto.
  - intros (s & -> & ->). eauto.
Qed.
Lemma alias_of_iff : forall z st n k, alias_of z st n k <-> exists name s, znth (d_names (g_dic st)) (n - 1) = Some (name, s) /\ sy_type s = dt_alias /\ sy_uinfo s = k.
Proof.
  intros z st n k. unfold alias_of. split.
  - intros ((name & dim & S) & U). pose proof (proj1 S) as NZ. apply symbol_iff in S. destruct S as (s & E & _ & T).
    apply user_info_iff in U; [|exact NZ]. destruct U as (s' & G & ->). unfold get_sym in G. rewrite E in G. injection G as <-. eauto.
  - intros (name & s & E & T & <-). split.
    + exists name, (Z.of_nat (sy_dim s)). apply symbol_iff. eauto.
    + apply user_info_iff; [intros ->; discriminate|]. exists s. unfold get_sym. rewrite E. auto.
Qed.

Lemma writing_syms : forall z cs st, in_writing z cs st -> syms_inv (g_dic st).
Proof.
  intros z. apply (writing_dic z syms_inv).
  - intros st C. apply created_dic in C. destruct C as (C & _). intros n s H. unfold get_sym in H. rewrite C in H. rewrite znth_None in H by (unfold zlen; cbn; lia). discriminate.
  - intros np d _ I n s H. destruct (loaded_sym_inv _ _ _ H) as (s0 & G & ->). destruct (I _ _ G) as [B|[B|(B1 & B2 & t & nm & B3 & B4 & B5)]]; [left; exact B|right; left; exact B|].
    right. right. split; [exact B1|]. split; [exact B2|]. apply get_sym_znth in B3. destruct B3 as (nm' & B3). exists (FileFacts.stored t), nm.
    split; [apply get_sym_znth; exists nm'; apply loaded_back; exact B3|]. split; [|exact B5].
    unfold sym_name in *. cbn [sy_uinfo FileFacts.stored]. change (sy_uinfo (FileFacts.stored s0)) with (sy_uinfo s0). rewrite (loaded_back _ _ _ _ B3). rewrite B3 in B4. exact B4.
  - intros c d d'. apply syms_step.
Qed.

(** After any write history, an alias refers to the universe (and has dimension 1) or to
    an earlier symbol, a set or an alias, of the same dimension. *)
Theorem C30_aliases_refer_back : forall z cs st n k name dim, in_writing z cs st -> alias_of z st n k -> symbol z st n name dim dt_alias ->
  k = 0 /\ dim = 1 \/
  1 <= k < n /\ exists name' typ, symbol z st k name' dim typ /\ (typ = dt_set \/ typ = dt_alias).
Proof.
  intros z cs st n k name dim W A S. apply writing_syms in W. apply alias_of_iff in A. destruct A as (nm & s & E & T & U).
  apply symbol_iff in S. destruct S as (s' & E' & D & _). rewrite E in E'. injection E' as <- <-.
  assert (G : get_sym (g_dic st) n = Some s) by (unfold get_sym; rewrite E; reflexivity).
  destruct (W n s G) as [(B & _)|[(_ & B1 & B2 & _)|(_ & B1 & t & nm' & B2 & B3 & B4 & B5 & _)]].
  - exfalso. rewrite T in B. unfold dt_alias, dt_equ in B. lia.
  - left. split; [congruence|]. rewrite D, B2. reflexivity.
  - right. rewrite <- U. split; [exact B1|]. apply get_sym_znth in B2. destruct B2 as (nm2 & B2). exists nm2, (sy_type t).
    split; [|exact B4]. apply symbol_iff. exists t. rewrite D, B5. auto.
Qed.

(** Hence every alias leads, after finitely many steps, to exactly one set, or to the
    universe. *)
Theorem C30_aliases_resolve : forall z cs st n k, in_writing z cs st -> alias_of z st n k ->
  exists m, resolves z st n m /\ (m = 0 \/ exists name dim, symbol z st m name dim dt_set).
Proof.
  intros z cs st n k W A.
  assert (X : forall b, forall n k, n <= Z.of_nat b -> alias_of z st n k -> exists m, resolves z st n m /\ (m = 0 \/ exists name dim, symbol z st m name dim dt_set)).
  { induction b as [|b IH]; intros n0 k0 B A0; pose proof (proj1 A0) as (name & dim & S).
    - exfalso. apply alias_of_iff in A0. destruct A0 as (nm & s & E & _). apply znth_Some in E. lia.
    - destruct (C30_aliases_refer_back _ _ _ _ _ _ _ W A0 S) as [(-> & _)|(R & name' & typ & S' & [->| ->])].
      + exists 0. split; [apply R_universe; exact A0|left; reflexivity].
      + exists k0. split; [|right; eauto]. eapply R_alias; [exact A0|lia|]. eapply R_symbol; [exact S'|discriminate].
      + pose proof S' as S2. apply symbol_iff in S2. destruct S2 as (s2 & E2 & _ & T2).
        destruct (IH k0 (sy_uinfo s2)) as (m & M1 & M2); [lia|apply alias_of_iff; eauto|].
        exists m. split; [|exact M2]. eapply R_alias; [exact A0|lia|exact M1]. }
  apply (X (Z.to_nat n) n k); [lia|exact A].
Qed.
Theorem C30_resolution_is_unique : forall z st n m m', resolves z st n m -> resolves z st n m' -> m = m'.
Proof.
  intros z st n m m' R. revert m'. induction R as [n name dim typ S T|n A|n k m A K R IH]; intros m' R'; inversion R'; subst; clear R'.
  all: repeat match goal with
    | H : symbol _ _ _ _ _ _ |- _ => apply symbol_iff in H; destruct H as (? & ? & ? & ?)
    | H : alias_of _ _ _ _ |- _ => apply alias_of_iff in H; destruct H as (? & ? & ? & ? & ?) end; try congruence.
  apply IH. congruence.
Qed.

(** Adding an alias: exactly one of the two names is that of a symbol (or "*", the
    universe), which must be a set or an alias; the other one is the name of the new
    symbol, which refers to it. *)
Definition denotes (z : zlib) (st : gst) (id : str) (k : Z) : Prop :=
  id = s2z "*" /\ k = 0 \/ id <> s2z "*" /\ exists name dim typ, symbol z st k name dim typ /\ (typ = dt_set \/ typ = dt_alias) /\ upper name = upper id.
Lemma find_pos : forall d id, sym_find d id <> 0.
Proof. intros d id. unfold sym_find. destruct (sl_find _ _ _) as [q|] eqn:Q; [|lia]. apply sl_find_Some in Q. destruct Q as (e & Q & _). apply znth_Some in Q. lia. Qed.
Lemma find_le : forall d id, sym_find d id <= sym_count d.
Proof. intros d id. unfold sym_find, sym_count. destruct (sl_find _ _ _) as [q|] eqn:Q; [apply sl_find_Some in Q; destruct Q as (e & Q & _); apply znth_Some in Q|unfold zlen]; lia. Qed.

Theorem C30_adding_an_alias : forall z cs st a b r st' k, in_writing z cs st -> exec z (gdxAddAlias a b) st = Done (r, st') ->
  symbols z st k -> k < INT_MAX ->
  (r_code r = 1 -> symbols z st' (k + 1) /\
     exists name target t dim, (name = a /\ target = b \/ name = b /\ target = a) /\ denotes z st target t /\
       symbol z st' (k + 1) name dim dt_alias /\ alias_of z st' (k + 1) t) /\
  (r_code r <> 1 -> r_code r = 0 /\ symbols z st' k /\ forall n, same_answer z st st' (gdxSymbolInfo n)).
Proof.
  intros z cs st a b r st' k W E K KM. rewrite !symbols_iff in *. subst k. cbn [exec] in E. unfold add_alias, checked in E.
  pose proof (writing_names _ _ _ W) as [WD _].
  match goal with |- ?G => assert (SAME : forall st1, g_dic st1 = g_dic st -> Done (ret 0, st1) = Done (r, st') -> G) end.
  { intros st1 D H. injection H as <- <-. split; [discriminate|]. intros _. split; [reflexivity|]. split; [congruence|].
    intros n r0. unfold answers. cbn [exec]. unfold symbol_info. rewrite D.
    destruct (n =? 0); [|destruct (znth _ _) as [[u v]|]]; split; intros (s' & H); injection H as <- _; eauto. }
  destruct (mode_in _ _); [|eapply SAME; [|exact E]; reflexivity]. cbv zeta in E.
  set (find := fun id => if str_eqb id (s2z "*") then INT_MAX else sym_find (g_dic st) id) in *.
  change (if str_eqb a (s2z "*") then INT_MAX else sym_find (g_dic st) a) with (find a) in E.
  change (if str_eqb b (s2z "*") then INT_MAX else sym_find (g_dic st) b) with (find b) in E.
  assert (F0 : forall id, find id <> 0). { intros id F. unfold find in F. destruct (str_eqb id _); [discriminate|]. apply find_pos in F. exact F. }
  destruct (negb (xorb (0 <=? find a) (0 <=? find b))) eqn:X; [eapply SAME; [|exact E]; reflexivity|].
  destruct (if 0 <? find a then (find a, b) else (find b, a)) as [n name] eqn:NN.
  assert (exists target, (name = a /\ target = b \/ name = b /\ target = a) /\ n = find target /\ 1 <= n) as (target & NT & NF & NP).
  { apply negb_false_iff in X. pose proof (F0 a). pose proof (F0 b).
    destruct (Z.ltb_spec 0 (find a)).
    - injection NN as <- <-. exists a. repeat split; try lia. right; auto.
    - injection NN as <- <-. exists b. destruct (Z.leb_spec 0 (find a)); [lia|]. cbn in X.
      destruct (Z.leb_spec 0 (find b)); [|discriminate]. repeat split; try lia. left; auto. }
  set (t := if n =? INT_MAX then 0 else n) in *.
  destruct (if t =? 0 then Some None else option_map Some (get_sym (g_dic st) t)) as [tg|] eqn:TG; [|discriminate].
  match type of E with (if ?c then _ else _) = _ => destruct c eqn:TY end; [eapply SAME; [|exact E]; reflexivity|].
  assert (DEN : denotes z st target t).
  { unfold find in NF. destruct (str_eqb target (s2z "*")) eqn:SE.
    - apply str_eqb_spec in SE. left. unfold t. rewrite NF, Z.eqb_refl. auto.
    - right. assert (target <> s2z "*") by (intros Q; apply str_eqb_spec in Q; congruence). split; [assumption|].
      pose proof (find_le (g_dic st) target). assert (t = n) as -> by (unfold t; destruct (Z.eqb_spec n INT_MAX); lia).
      symmetry in NF. apply sym_find_iff in NF; [|exact WD|exact NP]. destruct NF as (nm & s & Q1 & Q2).
      destruct (Z.eqb_spec n 0); [lia|]. unfold get_sym in TG. rewrite Q1 in TG. injection TG as <-. cbn [snd] in TY.
      exists nm, (Z.of_nat (sy_dim s)), (sy_type s). split; [apply symbol_iff; eauto|]. split; [|exact Q2]. lia. }
  destruct (good_new_symbol name st) as [okn st1] eqn:GN.
  destruct (WriteSteps.good_new_symbol_cases _ _ _ _ GN) as [(-> & -> & _)|(-> & e & ->)]; cbn [negb] in E; [|refine (SAME (set_error e st) _ E); unfold set_error; destruct (e =? 0); reflexivity].
  match type of E with obind ?o _ = _ => destruct o as [text|] end; [|discriminate]. cbn [obind] in E. injection E as <- <-.
  split; [|intros C; contradiction C; reflexivity]. intros _.
  set (s := mkSym _ _ _ _ _ _ _ _ _ _ _ _ _ _).
  change (g_dic (upd_dic _ st)) with (set_d_names (d_names (g_dic st) ++ [(name, s)]) (g_dic st)).
  assert (EQ : znth (d_names (g_dic (upd_dic (fun d => set_d_names (d_names d ++ [(name, s)]) d) st))) (sym_count (g_dic st) + 1 - 1) = Some (name, s)).
  { apply znth_snoc. right. unfold sym_count. split; [lia|reflexivity]. }
  split; [unfold sym_count; cbn [d_names set_d_names]; unfold zlen; rewrite app_length; cbn; lia|].
  exists name, target, t, (Z.of_nat (sy_dim s)). split; [exact NT|]. split; [exact DEN|]. split; [apply symbol_iff; eauto|].
  apply alias_of_iff. exists name, s. auto.
Qed.

(** *** Reading through an alias *)

(** Every alias refers to the universe or to an earlier symbol, which is so after any
    write history (C30_aliases_refer_back). *)
Definition aliases_refer_back (z : zlib) (st : gst) : Prop := forall n k, alias_of z st n k -> 0 <= k < n.

Lemma resolve_le : forall z st, aliases_refer_back z st -> forall n m, resolves z st n m ->
  forall fuel, (Z.to_nat n <= fuel)%nat -> 1 <= n /\ m <= n /\ resolve_alias (g_dic st) fuel n = Done (if m =? 0 then None else Some m).
Proof.
  intros z st RB n m R. induction R as [n name dim typ S T|n A|n k m A K R IH]; intros fuel F.
  - apply symbol_iff in S. destruct S as (s & E & _ & ->). pose proof (znth_Some _ _ _ E) as B. split; [lia|]. split; [lia|].
    destruct fuel as [|fuel]; [lia|]. cbn [resolve_alias]. unfold get_sym. rewrite E. cbn [option_map snd].
    destruct (Z.eqb_spec (sy_type s) dt_alias); [contradiction|]. destruct (Z.eqb_spec n 0); [lia|]. reflexivity.
  - apply alias_of_iff in A. destruct A as (nm & s & E & T & U). pose proof (znth_Some _ _ _ E) as B. split; [lia|]. split; [lia|].
    destruct fuel as [|fuel]; [lia|]. cbn [resolve_alias]. unfold get_sym. rewrite E. cbn [option_map snd]. rewrite T, U. reflexivity.
  - pose proof (RB _ _ A) as B1. apply alias_of_iff in A. destruct A as (nm & s & E & T & U). pose proof (znth_Some _ _ _ E) as B.
    destruct fuel as [|fuel]; [lia|]. destruct (IH fuel) as (I1 & I2 & I3); [lia|]. split; [lia|]. split; [lia|].
    cbn [resolve_alias]. unfold get_sym. rewrite E. cbn [option_map snd]. rewrite T, U, Z.eqb_refl.
    destruct (Z.eqb_spec k 0); [contradiction|]. exact I3.
Qed.
Lemma resolve_end : forall z st n m, resolves z st n m -> m = 0 \/ exists name dim typ, symbol z st m name dim typ /\ typ <> dt_alias.
Proof. intros z st n m R. induction R; eauto 8. Qed.

Lemma restore_names : forall k n d d', restore_maps k n d = Done d' -> d_names d' = d_names d /\ d_nn d' = d_nn d.
Proof.
  induction k as [|k IH]; intros n d d' H; cbn [restore_maps] in H; [injection H as <-; auto|].
  destruct (set_user_map _ n d) as [d1|] eqn:S; [|discriminate]. cbn [obind] in H. apply IH in H. destruct H as (-> & ->).
  unfold set_user_map in S. destruct (znth _ _); [|discriminate]. injection S as <-. auto.
Qed.
Lemma read_done_names : forall st b st', data_read_done st = Done (b, st') -> d_names (g_dic st') = d_names (g_dic st) /\ d_nn (g_dic st') = d_nn (g_dic st).
Proof.
  intros st b st' H. unfold data_read_done in H. cbv zeta in H. destruct (negb _); [injection H as <- <-; auto|].
  change (g_dic (upd_wrk _ st)) with (g_dic st) in H. destruct (w_added _ =? 0).
  - injection H as <- <-. auto.
  - destruct (restore_maps _ _ _) as [d|] eqn:R; [|discriminate]. injection H as <- <-. apply restore_names in R. exact R.
Qed.
Lemma resolve_names : forall d d', d_names d' = d_names d -> forall k n, resolve_alias d' k n = resolve_alias d k n.
Proof.
  intros d d' E. induction k as [|k IH]; intros n; cbn [resolve_alias]; [reflexivity|]. unfold get_sym. rewrite E.
  destruct (option_map _ _) as [s|]; [|reflexivity]. destruct (_ =? dt_alias); [|reflexivity]. destruct (_ =? 0); [reflexivity|apply IH].
Qed.

Lemma prepare_alias : forall z st n m doms mode, d_nn (g_dic st) = true -> aliases_refer_back z st -> resolves z st n m ->
  prepare_symbol_read z n doms mode st = prepare_symbol_read z m doms mode st.
Proof.
  intros z st n m doms mode NN RB R. unfold prepare_symbol_read.
  set (first := if mode_in (g_mode st) _ then _ else _).
  assert (F : forall s, first = Done s -> d_names (g_dic s) = d_names (g_dic st) /\ d_nn (g_dic s) = true).
  { intros s H. unfold first in H. destruct (mode_in _ _); [|injection H as <-; auto].
    destruct (data_read_done st) as [[b s1]|] eqn:D; [|discriminate]. injection H as <-. apply read_done_names in D. destruct D as (-> & ->). auto. }
  destruct first as [s|]; [|reflexivity]. destruct (F s eq_refl) as (FN & FD). clear F. cbn [obind]. cbv zeta.
  destruct (negb _); [reflexivity|].
  pose proof (resolve_end _ _ _ _ R) as RE.
  assert (NB : 1 <= n <= sym_count (g_dic st)).
  { destruct R as [n name dim typ S T|n A|n k m A K R]; [apply symbol_iff in S; destruct S as (x & E & _)|apply alias_of_iff in A; destruct A as (y & x & E & _)..]; apply znth_Some in E; unfold sym_count; lia. }
  destruct (resolve_le _ _ RB _ _ R (S (length (d_names (g_dic st))))) as (_ & MB & RA); [unfold sym_count, zlen in NB; lia|].
  destruct (Z.eqb_spec n 0) as [|_]; [lia|]. cbn [negb andb].
  change (g_dic (upd_wrk _ (upd_wrk _ (upd_err _ s)))) with (g_dic s). rewrite FD. cbn [negb].
  assert (CNT : sym_count (g_dic s) = sym_count (g_dic st)) by (unfold sym_count; rewrite FN; reflexivity).
  replace ((1 <=? n) && (n <=? sym_count (g_dic s))) with true by lia. cbn [negb]. rewrite FN. rewrite (resolve_names _ _ FN), RA.
  destruct (Z.eqb_spec m 0) as [->|M0]; cbn [negb andb obind].
  - reflexivity.
  - destruct RE as [RE|(name & dim & typ & S & T)]; [contradiction|]. apply symbol_iff in S. destruct S as (x & E & _ & ->). pose proof (znth_Some _ _ _ E) as MB2.
    replace ((1 <=? m) && (m <=? sym_count (g_dic s))) with true by (unfold sym_count in *; lia). cbn [negb].
    replace (resolve_alias (g_dic s) (S (length (d_names (g_dic st)))) m) with (Done (Some m)); [reflexivity|].
    rewrite (resolve_names _ _ FN). cbn [resolve_alias]. unfold get_sym. rewrite E. cbn [option_map snd].
    destruct (Z.eqb_spec (sy_type x) dt_alias); [contradiction|]. reflexivity.
Qed.

(** Reading an alias, by any of the calls that start reading, does exactly what reading the
    symbol it resolves to does: same responses, same records, same later behaviour. *)
Definition reads (c : Z -> call) : Prop :=
  c = gdxDataReadRawStart \/ c = gdxDataReadStrStart \/ c = gdxDataReadMapStart \/
  (exists acts, c = fun n => gdxDataReadFilteredStart n acts) \/ c = gdxDataReadRawFast \/
  (exists lim, c = fun n => gdxDataReadRawFastEx n lim) \/ (exists fs lim, c = fun n => gdxDataReadRawFastFilt n fs lim).
Theorem C30_reading_an_alias : forall z cs st n m c, in_reading z cs st -> aliases_refer_back z st -> resolves z st n m -> reads c ->
  exec z (c n) st = exec z (c m) st.
Proof.
  intros z cs st n m c IR RB R RD.
  assert (NN : d_nn (g_dic st) = true).
  { destruct IR as (st0 & O & D). eapply (during_dic z (fun d => d_nn d = true)); [|exact D|apply opened_read_facts in O; unfold fresh_dic in O; tauto].
    intros c0 d d' _ A <-. apply (flags_keep _ _ _ A). }
  destruct RD as [->|[->|[->|[(acts & ->)|[->|[(lim & ->)|(fs & lim & ->)]]]]]]; cbn [exec].
  - unfold read_raw_start, read_start. rewrite (prepare_alias _ _ _ _ _ _ NN RB R). reflexivity.
  - unfold read_str_start, read_start. rewrite (prepare_alias _ _ _ _ _ _ NN RB R). reflexivity.
  - unfold read_map_start, read_start. rewrite (prepare_alias _ _ _ _ _ _ NN RB R). reflexivity.
  - unfold read_filtered_start, read_start. rewrite (prepare_alias _ _ _ _ _ _ NN RB R). reflexivity.
  - unfold read_raw_fast. rewrite (prepare_alias _ _ _ _ _ _ NN RB R). reflexivity.
  - unfold read_raw_fast_ex. rewrite (prepare_alias _ _ _ _ _ _ NN RB R). reflexivity.
  - unfold read_raw_fast_filt. rewrite (prepare_alias _ _ _ _ _ _ NN RB R). reflexivity.
Qed.

(** ** The hypotheses are met *)

Example C29_case_unique : forall n name dim typ, symbol rle_zlib case_written n name dim typ -> upper name = upper (s2z "CAP") -> n = 5.
Proof.
  intros n name dim typ S E. eapply (C29_names_are_unique _ _ _ n 5 _ (s2z "cap") _ _ 1 1 case_writing); [exact S| |rewrite E; reflexivity].
  split; [discriminate|ans].
Qed.
Example C29_case_found : answers rle_zlib case_written (gdxFindSymbol (s2z "DIST")) (ret_i 1 [6]).
Proof. apply (C29_names_are_found _ _ _ (s2z "DIST") case_writing); [discriminate|lia|]. exists (s2z "dist"), 2, 1. split; [split; [discriminate|ans]|reflexivity]. Qed.
Example C29_case_start : exists st', exec rle_zlib (gdxDataWriteMapStart (s2z "Y_1") [] 20 3 0) case_written = Done (ret 1, st') /\
  symbol rle_zlib st' 8 (s2z "Y_1") 20 3 /\ symbol rle_zlib st' 5 (s2z "cap") 1 1.
Proof.
  exists (state_of (exec rle_zlib (gdxDataWriteMapStart (s2z "Y_1") [] 20 3 0) case_written)). split; [vm_compute; reflexivity|].
  split; (split; [discriminate|ans]).
Qed.
Example C29_case_refused : exists st', exec rle_zlib (gdxDataWriteMapStart (s2z "Monday") [] 1 1 0) case_written = Done (ret 0, st') /\ symbols rle_zlib st' 7.
Proof. eexists. split; [vm_compute; reflexivity|]. exists 3. ans. Qed.
Example C30_case_alias : resolves rle_zlib case_written 3 1 /\ resolves rle_zlib case_written 4 0.
Proof.
  assert (A : forall n k name dim, n <> 0 -> answers rle_zlib case_written (gdxSymbolInfo n) (ret_is 1 [dim; dt_alias] [name]) -> user_info rle_zlib case_written n k -> alias_of rle_zlib case_written n k).
  { intros n k name dim N S U. split; [exists name, dim; split; assumption|exact U]. }
  split.
  - eapply R_alias; [eapply (A 3 2 (s2z "III") 1); [discriminate|ans|do 2 eexists; ans]|discriminate|].
    eapply R_alias; [eapply (A 2 1 (s2z "II") 1); [discriminate|ans|do 2 eexists; ans]|discriminate|].
    eapply (R_symbol _ _ 1 (s2z "I") 1 0); [split; [discriminate|ans]|discriminate].
  - apply R_universe. eapply (A 4 0 (s2z "U") 1); [discriminate|ans|do 2 eexists; ans].
Qed.
Example C30_case_adding : exists st', exec rle_zlib (gdxAddAlias (s2z "iii") (s2z "J")) case_written = Done (ret 1, st') /\ alias_of rle_zlib st' 8 3.
Proof. eexists. split; [vm_compute; reflexivity|]. split; [exists (s2z "J"), 1; split; [discriminate|ans]|do 2 eexists; ans]. Qed.
Example C30_case_reading : exec rle_zlib (gdxDataReadStrStart 3) case_read = exec rle_zlib (gdxDataReadStrStart 1) case_read /\
  answers rle_zlib case_read (gdxDataReadStrStart 3) (ret_i 1 [2]).
Proof. split; [vm_compute; reflexivity|ans]. Qed.

Print Assumptions C29_names_are_unique.
Print Assumptions C29_names_are_identifiers.
Print Assumptions C29_names_are_found.
Print Assumptions C29_symbols_stay.
Print Assumptions C29_only_named_calls_add.
Print Assumptions C29_starting_a_symbol.
Print Assumptions C30_aliases_refer_back.
Print Assumptions C30_aliases_resolve.
Print Assumptions C30_resolution_is_unique.
Print Assumptions C30_adding_an_alias.
Print Assumptions C30_reading_an_alias.
