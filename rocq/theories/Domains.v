(** * Domains: the sets that a domain refers to, and their members *)

From Coq Require Import String Sorted Permutation.
From Verif Require Import Base Prim Values FloatAcr Records LinkedData StrHash IntMap Strings AStream BufStream State
  FileImage ApiCore ApiFile ApiWrite ApiRead Api FileFacts BlockFacts StreamFacts OpenFacts DicInv WriteInv WriteSteps Journal WriteCalls WriteTrace
  Footprint SessInv FileFlow Sessions Vocab PropErr Reopen ReadFacts ReadRecs ReadLoops PropNames PropMeta Segment PropDomain LabelFacts Buffered Contents.
Open Scope Z_scope.
Open Scope list_scope.

(** ** Which symbols have a bit map *)

Definition bits_typed (d : dic) : Prop := forall n s, get_sym d n = Some s -> sy_bits s <> None -> sy_type s = dt_set /\ sy_dim s = 1%nat.
Definition has_bits (d : dic) (n : Z) : Prop := exists s, get_sym d n = Some s /\ sy_bits s <> None.

Lemma sym_step_bits : forall c k a b, sym_step c k a b -> (sy_bits b = None <-> sy_bits a = None) /\ sy_type b = sy_type a /\ sy_dim b = sy_dim a.
Proof.
  intros c k a b [(H1 & H2 & _ & _ & _ & _ & _ & _ & H)|[(ids & v & _ & ->)|[(ids & ns & _ & ->)|(j & t & _ & _ & ->)]]].
  1: split; [exact H|split; assumption]. all: cbn; split; [reflexivity|split; reflexivity].
Qed.
Lemma bits_typed_step : forall c d d', datom c d d' -> bits_typed d -> bits_typed d'.
Proof.
  intros c d d' A B n s G N. apply get_sym_znth in G. destruct G as (nm & G).
  destruct (names_cases _ _ _ A) as [E|[(name & s0 & _ & _ & _ & (_ & _ & _ & NB & _) & E)|(k & e & s0 & E0 & ST & E)]]; rewrite E in G.
  - eapply (B n); [apply get_sym_znth; eauto|exact N].
  - apply StrHash.znth_snoc in G. destruct G as [G|[_ G]]; [eapply (B n); [apply get_sym_znth; eauto|exact N]|]. injection G as <- <-. apply NB. exact N.
  - destruct (Z.eq_dec k n) as [->|NE].
    + rewrite znth_zset_eq in G by (apply znth_Some in E0; lia). injection G as <- <-. destruct (sym_step_bits _ _ _ _ ST) as (X1 & -> & ->).
      eapply (B n); [apply get_sym_znth; exists (fst e); rewrite E0; destruct e; reflexivity|]. intros X. apply N, X1, X.
    + rewrite znth_zset_neq in G by lia. eapply (B n); [apply get_sym_znth; eauto|exact N].
Qed.
Lemma has_bits_step : forall c d d' n, datom c d d' -> has_bits d n -> has_bits d' n.
Proof.
  intros c d d' n A (s & G & N). apply get_sym_znth in G. destruct G as (nm & G).
  destruct (names_cases _ _ _ A) as [E|[(name & s0 & _ & _ & _ & _ & E)|(k & e & s0 & E0 & ST & E)]].
  - exists s. split; [apply get_sym_znth; rewrite E; eauto|exact N].
  - exists s. split; [apply get_sym_znth; exists nm; rewrite E, znth_app_l by (apply znth_Some in G; lia); exact G|exact N].
  - destruct (Z.eq_dec k n) as [->|NE].
    + assert (e = (nm, s)) by congruence. subst e. exists s0. split; [apply get_sym_znth; exists nm; rewrite E; apply znth_zset_eq; apply znth_Some in G; lia|].
      destruct (sym_step_bits _ _ _ _ ST) as (X1 & _). intros X. apply N, X1, X.
    + exists s. split; [apply get_sym_znth; exists nm; rewrite E, znth_zset_neq by lia; exact G|exact N].
Qed.
Lemma has_bits_during : forall z cs a b n, during z cs a b -> has_bits (g_dic a) n -> has_bits (g_dic b) n.
Proof. intros z cs a b n D H. eapply (during_dic z (fun d => has_bits d n)); [|exact D|exact H]. intros c d d' _ A. apply (has_bits_step c d d' n A). Qed.

Lemma writes_bits : forall z name prod compr cs rs st, writes z name prod compr cs rs st -> bits_typed (g_dic st).
Proof.
  intros z name prod compr cs rs st W. revert name prod compr cs rs st W. apply (writes_dic z bits_typed).
  - intros st0 name prod compr ra sta O C.
    destruct (created_facts z sta) as (_ & _ & _ & _ & _ & mt & uc & D); [exists st0, name, prod, compr, ra; auto|].
    rewrite D. intros n s G. apply get_sym_znth in G. destruct G as (nm & G). cbn [d_names] in G. unfold znth in G. destruct (n - 1 <? 0); [discriminate|]. destruct (Z.to_nat (n - 1)); discriminate.
  - intros np d _ B n s G. destruct (loaded_sym_inv _ _ _ G) as (s0 & G0 & ->). intros X. contradiction X. reflexivity.
  - intros cs a b D I. eapply (during_dic z bits_typed); [|exact D|exact I]. intros c d d' _ A. apply (bits_typed_step c d d' A).
Qed.

(** ** Setting a domain: what is checked afterwards *)

Definition sketch (d : dic) (n : Z) : option (nat * Z * Z * option (list Z)) :=
  option_map (fun s => (sy_dim s, sy_type s, sy_uinfo s, sy_bits s)) (get_sym d n).
Lemma sketch_doms : forall d k f n, sketch (upd_sym k (fun s => set_sy_doms (f s) s) d) n = sketch d n.
Proof.
  intros d k f n. unfold sketch. destruct (Z.eq_dec k n) as [->|NE].
  - destruct (get_sym d n) as [s|] eqn:G; [rewrite (get_sym_upd _ _ _ _ G); reflexivity|].
    unfold upd_sym. unfold get_sym in G. destruct (znth (d_names d) (n - 1)) eqn:ZN; [discriminate|]. unfold get_sym. rewrite ZN. reflexivity.
  - rewrite get_sym_upd_neq by congruence. reflexivity.
Qed.
Lemma dom_resolve_ext : forall d d' b, (forall n, sketch d' n = sketch d n) -> forall fuel n, dom_resolve d' b fuel n = dom_resolve d b fuel n.
Proof.
  intros d d' b H. assert (G : forall n, get_sym d' n = None <-> get_sym d n = None).
  { intros n. specialize (H n). unfold sketch in H. destruct (get_sym d' n), (get_sym d n); cbn in H; try discriminate; split; congruence. }
  induction fuel as [|fuel IH]; intros n; [reflexivity|]. cbn [dom_resolve]. pose proof (H n) as HN. unfold sketch in HN.
  destruct (get_sym d' n) as [s'|], (get_sym d n) as [s|]; cbn in HN; try discriminate; [|reflexivity]. injection HN as H1 H2 H3 H4. rewrite H1, H2, H3, IH.
  destruct (negb b && Nat.eqb (sy_dim s) 1 && ((sy_type s =? dt_set) || (sy_type s =? dt_alias))); [|reflexivity].
  destruct (sy_type s =? dt_alias).
  - pose proof (H (sy_uinfo s)) as HU. unfold sketch in HU. destruct (get_sym d' (sy_uinfo s)), (get_sym d (sy_uinfo s)); cbn in HU; try discriminate; [|reflexivity].
    injection HU as _ _ _ HU. rewrite HU. reflexivity.
  - rewrite H4. reflexivity.
Qed.

Definition bit_entry (d : dic) (t : Z) : option Z :=
  match get_sym d t with Some s => match sy_bits s with Some _ => Some t | None => None end | None => None end.
Lemma bit_entry_ext : forall d d' t, sketch d' t = sketch d t -> bit_entry d' t = bit_entry d t.
Proof.
  intros d d' t H. unfold sketch in H. unfold bit_entry. destruct (get_sym d' t), (get_sym d t); cbn in H; try discriminate; [|reflexivity].
  injection H as _ _ _ ->. reflexivity.
Qed.

(** The entry of a domain position after an accepted gdxSymbolSetDomain. *)
Definition dom_entry (d : dic) (bogus : bool) (dim : nat) (cur : Z) (id : str) (e : option Z) : Prop :=
  id = s2z "*" /\ e = None \/
  id <> s2z "*" /\ 1 <= sym_find d id /\
    (dom_resolve d bogus (S (length (d_names d))) (sym_find d id) = Done DUniverse /\ e = None \/
     exists t, dom_resolve d bogus (S (length (d_names d))) (sym_find d id) = Done (DSet t) /\
       e = if Nat.eqb dim 1 && (sym_find d id =? cur) then None else bit_entry d t).

Lemma app_mid : forall {A} (l : list A) i, (i < length l)%nat -> exists x, l = firstn i l ++ x :: skipn (S i) l.
Proof.
  induction l as [|a l IH]; intros [|i] H; cbn [length] in H; try lia.
  - exists a. reflexivity.
  - destruct (IH i) as (x & E); [lia|]. exists x. cbn [firstn skipn app]. f_equal. exact E.
Qed.

Lemma Forall_skip : forall {A} (P : A -> Prop) i l, Forall P (skipn i l) -> Forall P (skipn (S i) l).
Proof.
  intros A P. induction i as [|i IH]; intros [|a l] F; cbn [skipn] in *; try constructor.
  - inversion F. assumption.
  - apply IH. exact F.
Qed.

Lemma set_domains_entries : forall cur ids d0 i res st st', set_domains cur ids i res st = Done (true, true, st') ->
  (forall n, sketch (g_dic st) n = sketch d0 n) -> same_keys (g_dic st) d0 ->
  (i + length ids)%nat = length (w_wrb (g_wrk st)) -> Forall (fun e => e = None) (skipn i (w_wrb (g_wrk st))) ->
  exists es, w_wrb (g_wrk st') = firstn i (w_wrb (g_wrk st)) ++ es /\ Forall2 (dom_entry d0 (e_bogus (g_env st)) (w_dim (g_wrk st)) cur) ids es.
Proof.
  intros cur. induction ids as [|id ids IH]; intros d0 i res st st' H SK KE L NN; cbn [set_domains] in H.
  - injection H as _ <-. exists []. split; [|constructor]. cbn [length] in L. rewrite app_nil_r, firstn_all2 by lia. reflexivity.
  - cbv zeta in H. cbn [length] in L.
    assert (LD : length (d_names (g_dic st)) = length (d_names d0)) by (apply (f_equal (@length str)) in KE; rewrite !map_length in KE; exact KE).
    assert (FD : sym_find (g_dic st) id = sym_find d0 id) by (apply same_keys_find; exact KE).
    rewrite LD, FD, (dom_resolve_ext d0 (g_dic st) _ SK) in H.
    (* the rest, with the entry [e] at this position *)
    assert (GO : forall v r1 (e : option Z) (w : bool) s1, g_dic s1 = upd_sym cur (fun y => set_sy_doms (option_map (set_nth i v) (sy_doms y)) y) (g_dic st) ->
      e_bogus (g_env s1) = e_bogus (g_env st) -> w_dim (g_wrk s1) = w_dim (g_wrk st) ->
      w_wrb (g_wrk s1) = (if w then set_nth i e (w_wrb (g_wrk st)) else w_wrb (g_wrk st)) -> (w = false -> e = None) ->
      set_domains cur ids (S i) r1 s1 = Done (true, true, st') -> dom_entry d0 (e_bogus (g_env st)) (w_dim (g_wrk st)) cur id e ->
      exists es, w_wrb (g_wrk st') = firstn i (w_wrb (g_wrk st)) ++ es /\ Forall2 (dom_entry d0 (e_bogus (g_env st)) (w_dim (g_wrk st)) cur) (id :: ids) es).
    { intros v r1 e w s1 G1 G2 G3 G4 G5 H1 DE.
      assert (SN : w_wrb (g_wrk s1) = set_nth i e (w_wrb (g_wrk st))).
      { rewrite G4. destruct w; [reflexivity|]. rewrite (G5 eq_refl). destruct (app_mid (w_wrb (g_wrk st)) i) as (x & E); [lia|].
        assert (X : x = None).
        { rewrite E in NN. rewrite Forall_forall in NN. apply NN. rewrite skipn_app, firstn_length, skipn_all2 by (rewrite firstn_length; lia).
          replace (i - Nat.min i (length (w_wrb (g_wrk st))))%nat with O by lia. left. reflexivity. }
        subst x. clear - E. revert E. generalize (w_wrb (g_wrk st)). induction i as [|k IHk]; intros [|a l] E; cbn [firstn skipn app set_nth] in *; try discriminate.
        - congruence.
        - f_equal. apply IHk. congruence. }
      destruct (IH d0 (S i) r1 s1 st' H1) as (es & E1 & E2).
      - intros n. rewrite G1, sketch_doms. apply SK.
      - rewrite G1. unfold same_keys in *. rewrite (same_keys_upd cur _ (g_dic st)). exact KE.
      - rewrite SN, set_nth_length. lia.
      - rewrite SN, skipn_S_set. apply Forall_skip. exact NN.
      - rewrite G2, G3 in E2. exists (e :: es). split; [|constructor; [exact DE|exact E2]]. rewrite E1, SN, firstn_S_set by lia. rewrite <- app_assoc. reflexivity. }
    destruct (str_eqb id (s2z "*")) eqn:ST.
    { apply str_eqb_spec in ST. eapply (GO 0 res None false); [..|exact H|left; auto]; try reflexivity. }
    assert (NS : id <> s2z "*") by (intros ->; discriminate ST).
    assert (FALSE : forall ids i st st', set_domains cur ids i false st = Done (true, true, st') -> False).
    { clear. induction ids as [|id ids IH]; intros i st st' H; cbn [set_domains] in H; [discriminate|]. cbv zeta in H.
      destruct (str_eqb id (s2z "*")); [eapply IH; exact H|]. destruct (_ <=? 0); [eapply IH; exact H|]. destruct (dom_resolve _ _ _ _) as [x|]; [|discriminate]. cbn [obind] in H.
      destruct x; try discriminate; eapply IH; exact H. }
    destruct (Z.leb_spec (sym_find d0 id) 0) as [|P]; [exfalso; eapply FALSE; exact H|].
    destruct (dom_resolve d0 (e_bogus (g_env st)) (S (length (d_names d0))) (sym_find d0 id)) as [x|] eqn:DR; [|discriminate]. cbn [obind] in H. destruct x as [|t| |].
    + discriminate.
    + match type of H with context [w_dim (g_wrk (upd_dic ?f st))] => change (w_dim (g_wrk (upd_dic f st))) with (w_dim (g_wrk st)) in H end. fold (bit_entry (g_dic st) t) in H. rewrite (bit_entry_ext d0 (g_dic st) t (SK t)) in H.
      assert (DE : dom_entry d0 (e_bogus (g_env st)) (w_dim (g_wrk st)) cur id (if Nat.eqb (w_dim (g_wrk st)) 1 && (sym_find d0 id =? cur) then None else bit_entry d0 t)).
      { right. split; [exact NS|]. split; [lia|]. right. exists t. auto. }
      destruct (Nat.eqb (w_dim (g_wrk st)) 1 && (sym_find d0 id =? cur)) eqn:OWN.
      * eapply (GO (sym_find d0 id) res None false); [..|exact H|exact DE]; try reflexivity.
      * eapply (GO (sym_find d0 id) res (bit_entry d0 t) true); [..|exact H|exact DE]; try reflexivity. discriminate.
    + eapply (GO (sym_find d0 id) res None false); [..|exact H|]; try reflexivity. right. split; [exact NS|]. split; [lia|]. left. auto.
    + exfalso. eapply FALSE. exact H.
Qed.

(** ** The same, in terms of the API *)

(** The name [id] in a domain of symbol [n], with [dim] indices, checks nothing: it is
    "*", an alias of it, a set with more or fewer than one index, or a one-dimensional set
    that is its own domain. *)
Definition unchecked_domain (z : zlib) (st : gst) (n dim : Z) (id : str) : Prop :=
  id = s2z "*" \/
  exists k, 1 <= k /\ answers z st (gdxFindSymbol id) (ret_i 1 [k]) /\
    (resolves z st k 0 \/ dim = 1 /\ k = n \/ exists m nm dm typ, resolves z st k m /\ symbol z st m nm dm typ /\ dm <> 1).
(** It stands, perhaps through aliases, for another symbol [m] with one index. *)
Definition checked_domain (z : zlib) (st : gst) (n : Z) (id : str) (m : Z) : Prop :=
  exists k nm typ, answers z st (gdxFindSymbol id) (ret_i 1 [k]) /\ k <> n /\ resolves z st k m /\ symbol z st m nm 1 typ.

Lemma find_symbol_is : forall z st id k, id <> s2z "*" -> answers z st (gdxFindSymbol id) (ret_i 1 [k]) -> sym_find (g_dic st) id = k.
Proof.
  intros z st id k N (x & H). cbn [exec] in H. unfold find_symbol in H. destruct (str_eqb id (s2z "*")) eqn:E; [apply str_eqb_spec in E; contradiction|].
  destruct (d_nn (g_dic st)); [|discriminate]. injection H as _ H _. exact H.
Qed.
Lemma dom_resolve_set : forall z st b fuel n t, dom_resolve (g_dic st) b fuel n = Done (DSet t) ->
  resolves z st n t /\ exists s, get_sym (g_dic st) t = Some s /\ sy_type s = dt_set /\ (b = false -> sy_dim s = 1%nat -> sy_bits s <> None).
Proof.
  intros z st b. induction fuel as [|fuel IH]; intros n t H; cbn [dom_resolve] in H; [discriminate|].
  destruct (get_sym (g_dic st) n) as [o|] eqn:G; [|discriminate]. obind_inv H. destruct x; [discriminate|].
  destruct (Z.eqb_spec (sy_type o) dt_set) as [TS|TS].
  - injection H as <-. pose proof G as G'. apply get_sym_znth in G'. destruct G' as (nm & G'). split.
    + eapply (R_symbol _ _ _ nm (Z.of_nat (sy_dim o)) (sy_type o)); [apply symbol_iff; eauto|]. rewrite TS. discriminate.
    + exists o. split; [exact G|]. split; [exact TS|]. intros B D. rewrite B, D, TS in E. cbn [negb Nat.eqb andb orb] in E.
      change (dt_set =? dt_alias) with false in E. cbv iota in E. destruct (sy_bits o); [discriminate|discriminate].
  - destruct (Z.eqb_spec (sy_type o) dt_alias) as [TA|TA]; [|discriminate]. destruct (Z.ltb_spec 0 (sy_uinfo o)) as [L|L]; [|discriminate].
    destruct (IH _ _ H) as (R & X). split; [|exact X]. apply get_sym_znth in G. destruct G as (nm & G). eapply (R_alias _ _ _ (sy_uinfo o)); [|lia|exact R].
    apply alias_of_iff. eauto.
Qed.
Lemma dom_resolve_universe : forall z st b fuel n, aliases_refer_back z st -> dom_resolve (g_dic st) b fuel n = Done DUniverse -> resolves z st n 0.
Proof.
  intros z st b. induction fuel as [|fuel IH]; intros n RB H; cbn [dom_resolve] in H; [discriminate|].
  destruct (get_sym (g_dic st) n) as [o|] eqn:G; [|discriminate]. obind_inv H. destruct x; [discriminate|].
  destruct (Z.eqb_spec (sy_type o) dt_set) as [TS|TS]; [discriminate|]. destruct (Z.eqb_spec (sy_type o) dt_alias) as [TA|TA]; [|discriminate].
  apply get_sym_znth in G. destruct G as (nm & G). assert (A : alias_of z st n (sy_uinfo o)) by (apply alias_of_iff; eauto). pose proof (RB _ _ A).
  destruct (Z.ltb_spec 0 (sy_uinfo o)) as [L|L].
  - eapply R_alias; [exact A|lia|]. apply IH; assumption.
  - apply R_universe. replace (sy_uinfo o) with 0 in A by lia. exact A.
Qed.

Lemma entry_unchecked : forall z st b dim n id e, bits_typed (g_dic st) -> aliases_refer_back z st -> dom_entry (g_dic st) b dim n id e ->
  unchecked_domain z st n (Z.of_nat dim) id -> e = None.
Proof.
  intros z st b dim n id e BT RB [(_ & E)|(N & P & E)] U; [exact E|]. destruct E as [(_ & E)|(t & R & ->)]; [exact E|].
  destruct U as [U|(k & K & F & U)]; [contradiction|]. pose proof (find_symbol_is _ _ _ _ N F) as FK. rewrite FK in *.
  destruct (dom_resolve_set z _ _ _ _ _ R) as (RS & s & G & T & _).
  destruct (Nat.eqb_spec dim 1) as [D|D]; cbn [andb].
  - destruct (Z.eqb_spec k n) as [KN|KN]; [reflexivity|]. unfold bit_entry. rewrite G. destruct (sy_bits s) as [l|] eqn:B; [|reflexivity]. exfalso.
    destruct (BT _ _ G) as (_ & D1); [congruence|]. destruct U as [U|[(_ & U)|(m & nm & dm & typ & U1 & U2 & U3)]].
    + pose proof (C30_resolution_is_unique _ _ _ _ _ RS U) as ->. apply get_sym_znth in G. destruct G as (nm & G). apply znth_Some in G. lia.
    + contradiction.
    + pose proof (C30_resolution_is_unique _ _ _ _ _ RS U1) as ->. apply symbol_iff in U2. destruct U2 as (s' & U2 & U4 & _).
      assert (G' : get_sym (g_dic st) m = Some s') by (apply get_sym_znth; eauto). rewrite G in G'. injection G' as <-. lia.
  - unfold bit_entry. rewrite G. destruct (sy_bits s) as [l|] eqn:B; [|reflexivity]. exfalso.
    destruct (BT _ _ G) as (_ & D1); [congruence|]. destruct U as [U|[(U & _)|(m & nm & dm & typ & U1 & U2 & U3)]].
    + pose proof (C30_resolution_is_unique _ _ _ _ _ RS U) as ->. apply get_sym_znth in G. destruct G as (nm & G). apply znth_Some in G. lia.
    + lia.
    + pose proof (C30_resolution_is_unique _ _ _ _ _ RS U1) as ->. apply symbol_iff in U2. destruct U2 as (s' & U2 & U4 & _).
      assert (G' : get_sym (g_dic st) m = Some s') by (apply get_sym_znth; eauto). rewrite G in G'. injection G' as <-. lia.
Qed.
Lemma entry_checked : forall z st b dim n id e m, aliases_refer_back z st -> dom_entry (g_dic st) b dim n id e ->
  checked_domain z st n id m -> has_bits (g_dic st) m -> e = Some m.
Proof.
  intros z st b dim n id e m RB D (k & nm & typ & F & KN & R & S) (s' & G' & B').
  assert (K0 : 1 <= k) by (destruct (resolve_le _ _ RB _ _ R (Z.to_nat k) (le_n _)) as (X & _); exact X).
  assert (N : id <> s2z "*").
  { intros ->. destruct F as (x & F). cbn [exec] in F. unfold find_symbol in F. change (str_eqb (s2z "*") (s2z "*")) with true in F. injection F as F _. lia. }
  pose proof (find_symbol_is _ _ _ _ N F) as FK. destruct D as [(X & _)|(_ & _ & D)]; [contradiction|]. rewrite FK in *. pose proof (proj1 S) as M0.
  destruct D as [(DR & _)|(t & DR & ->)].
  - pose proof (dom_resolve_universe z _ _ _ _ RB DR) as R0. pose proof (C30_resolution_is_unique _ _ _ _ _ R R0). contradiction.
  - destruct (dom_resolve_set z _ _ _ _ _ DR) as (RS & s & G & T & B). pose proof (C30_resolution_is_unique _ _ _ _ _ R RS) as ->.
    destruct (Z.eqb_spec k n); [contradiction|]. rewrite Bool.andb_false_r. rewrite G in G'. injection G' as <-.
    unfold bit_entry. rewrite G. destruct (sy_bits s); [reflexivity|contradiction].
Qed.
Lemma entry_not_self : forall z st b dim n id e s, bits_typed (g_dic st) -> aliases_refer_back z st -> sym_count (g_dic st) = n ->
  get_sym (g_dic st) n = Some s -> sy_dim s = dim -> dom_entry (g_dic st) b dim n id e -> e <> Some n.
Proof.
  intros z st b dim n id e s BT RB CN GN DN [(_ & ->)|(N & P & [(_ & ->)|(t & R & ->)])]; try discriminate. intros E.
  destruct (dom_resolve_set z _ _ _ _ _ R) as (RS & s' & G & _).
  destruct (resolve_le _ _ RB _ _ RS _ (le_n _)) as (_ & LE & _). pose proof (find_le (g_dic st) id) as FL.
  destruct (Nat.eqb dim 1 && (sym_find (g_dic st) id =? n)) eqn:OWN; [discriminate|].
  unfold bit_entry in E. rewrite G in E. destruct (sy_bits s') as [l|] eqn:B; [|discriminate]. injection E as ->.
  rewrite GN in G. injection G as <-. destruct (BT _ _ GN) as (_ & D1); [congruence|].
  replace (sym_find (g_dic st) id) with n in OWN by lia. rewrite Z.eqb_refl in OWN. replace (Nat.eqb dim 1) with true in OWN; [discriminate|]. symmetry. apply Nat.eqb_eq. lia.
Qed.

(** ** The bit map of a set that is started *)

Lemma prepare_bits : forall z name text uinfo st st', prepare_symbol_write z name text 1 dt_set uinfo st = Done (true, st') -> e_storedom (g_env st) = true ->
  w_cur (g_wrk st') = CSym (sym_count (g_dic st')) /\ exists s, g_dic st' = set_d_names (d_names (g_dic st) ++ [(name, s)]) (g_dic st) /\ sy_bits s <> None.
Proof.
  intros z name text uinfo st st' H SD. unfold prepare_symbol_write in H. cbv zeta in H.
  change (g_mode (upd_wrk _ _)) with (g_mode st) in H. destruct (mode_in (g_mode st) [fw_init]); cbn [negb] in H; [|discriminate].
  unfold good_new_symbol in H. change (g_dic (upd_wrk _ (upd_err _ st))) with (g_dic st) in H.
  destruct (1 <=? sym_find (g_dic st) name); [discriminate|]. destruct (0 <=? acro_named name (d_acros (g_dic st))); [discriminate|].
  destruct (good_ident name); [|discriminate]. cbn [negb] in H. change ((0 <=? 1) && (1 <=? 20)) with true in H. change ((0 <=? dt_set) && (dt_set <=? dt_equ)) with true in H.
  cbn [negb] in H. unfold s_setcomp in H. destruct (f_strm _) as [s0|]; [|discriminate]. cbn [obind] in H. injection H as <-.
  split; [reflexivity|]. eexists. split; [reflexivity|]. cbn [sy_bits]. change (g_env (upd_wrk _ (upd_err _ st))) with (g_env st). rewrite SD. discriminate.
Qed.
Lemma start_bits : forall z c name text uinfo st r st', starting c name text 1 dt_set uinfo -> exec z c st = Done (r, st') -> r_code r = 1 -> e_storedom (g_env st) = true ->
  has_bits (g_dic st') (sym_count (g_dic st) + 1).
Proof.
  intros z c name text uinfo st r st' S E C SD.
  assert (LAST : forall l s d, sy_bits s <> None -> d = set_d_names (l ++ [(name, s)]) d -> has_bits d (zlen l + 1)).
  { intros l s d B D. exists s. split; [|exact B]. apply get_sym_znth. exists name. rewrite D. cbn [d_names set_d_names]. replace (zlen l + 1 - 1) with (zlen l) by lia.
    apply StrHash.znth_snoc. right. auto. }
  assert (PREP : forall k, (do (ok, st) <- prepare_symbol_write z name text 1 dt_set uinfo st ;; if negb ok then Done (ret 0, st) else k st) = Done (r, st') ->
    (forall s1, k s1 = Done (r, st') -> w_cur (g_wrk s1) = CSym (sym_count (g_dic s1)) -> forall d l s, g_dic s1 = set_d_names (l ++ [(name, s)]) d ->
       exists p, g_dic st' = set_d_names (l ++ [(name, set_sy_pos p s)]) d) ->
    has_bits (g_dic st') (sym_count (g_dic st) + 1)).
  { intros k H K. destruct (prepare_symbol_write z name text 1 dt_set uinfo st) as [[b s1]|] eqn:P; [|discriminate]. cbn [obind] in H.
    destruct b; cbn [negb] in H; [|injection H as <- <-; discriminate]. destruct (prepare_bits _ _ _ _ _ _ P SD) as (P1 & s & P2 & P3).
    destruct (K _ H P1 _ _ _ P2) as (p & K2). apply (LAST _ (set_sy_pos p s)); [exact P3|]. rewrite K2. reflexivity. }
  assert (SP : forall s, set_sy_pos (sy_pos s) s = s) by (intros; destruct s; reflexivity).
  destruct S as [->|[(lo & hi & ->)|[->| ->]]]; cbn [exec] in E.
  - unfold write_raw_start in E. eapply PREP; [exact E|]. cbv beta. intros s1 H C1 d l s D.
    destruct (init_do_write z (-1) _) as [s2|] eqn:I; [|discriminate]. cbn [obind] in H. injection H as <- <-.
    change (g_dic (set_g_mode _ s2)) with (g_dic s2). eapply init_dic; [exact I|exact C1|exact D].
  - unfold write_raw_start_bounds in E. eapply PREP; [exact E|]. cbv beta. intros s1 H C1 d l s D. cbv zeta in H. destruct (_ || _); [discriminate|].
    destruct (init_do_write z (-1) _) as [s2|] eqn:I; [|discriminate]. cbn [obind] in H. injection H as <- <-.
    change (g_dic (set_g_mode _ s2)) with (g_dic s2). eapply init_dic; [exact I|exact C1|exact D].
  - unfold write_map_start in E. eapply PREP; [exact E|]. cbv beta. intros s1 H C1 d l s D. injection H as <- <-. exists (sy_pos s). rewrite SP; exact D.
  - unfold write_str_start in E. eapply PREP; [exact E|]. cbv beta. intros s1 H C1 d l s D. injection H as <- <-. exists (sy_pos s). rewrite SP; exact D.
Qed.

(** ** The members of a set *)

(** [l] are the elements of the set [m] that a reader finds. *)
Definition members_read (z : zlib) (st2 : gst) (m : Z) (l : list Z) : Prop :=
  exists rcs rrs st3 l', then_calls z rcs rrs st2 st3 /\ no_numbering z st3 /\ reads_all z st3 m l' /\ List.map (fun t => snd (fst t)) l' = List.map (fun k => [k]) l.

Lemma with_first_keys : forall recs prev, List.map (fun t : Z * list Z * list sval => snd (fst t)) (with_first prev recs) = List.map fst recs.
Proof. induction recs as [|[k v] recs IH]; intros prev; [reflexivity|]. cbn. f_equal. apply IH. Qed.

Section Z.
Context (z : zlib).

Lemma members_agree : forall name prod compr cs rs st st2 J m nm sy recs l, reopened z name prod compr cs rs st st2 ->
  jinv z (new_head prod compr) [] J st -> noted_at J m recs ->
  znth (d_names (g_dic st)) (m - 1) = Some (nm, sy) -> sy_dim sy = 1%nat -> sy_type sy = dt_set ->
  members_read z st2 m l -> List.map fst recs = List.map (fun k => [k]) l.
Proof.
  intros name prod compr cs rs st st2 J m nm sy recs l RO JI [NA _] ZN SD ST (rcs & rrs & st3 & l' & TC & NN & RA & EL).
  destruct (back_from _ _ _ _ _ _ _ _ _ RO JI) as (F & Q & _ & _ & BL). destruct (BL _ _ _ _ ZN NA) as [BA _].
  assert (Q3 : reads_file z F (d_names (g_dic st)) (uel_count (g_dic st)) st3).
  { destruct TC as [FA R]. eapply reads_during; [|exact Q]. split; [|split; [|eauto]].
    - apply forallb_forall. intros c I. rewrite Forall_forall in FA. apply (FA c I).
    - eapply Forall_impl; [|exact FA]. intros c [_ H]. exact H. }
  assert (HI : has_items z F (d_names (g_dic st)) (uel_count (g_dic st)) m 1 (List.map stored (with_first [INDEX_INITIAL] recs))).
  { right. exists nm, sy, recs. split; [exact ZN|]. split; [rewrite ST; discriminate|]. split; [lia|]. split; [exact BA|]. split; [lia|].
    unfold items_of. rewrite SD. reflexivity. }
  pose proof RA as (s1 & _ & _ & E & _).
  destruct (raw_start_answered z _ _ _ _ _ _ _ Q3 E eq_refl) as (st4 & Q4 & M4 & E4 & EE & EA).
  assert (QI : quiet (List.map stored (with_first [INDEX_INITIAL] recs)) st4) by (left; rewrite EE; eapply no_numbering_env; exact NN).
  destruct (items_read z _ _ _ _ _ _ _ Q4 M4 HI QI) as (sa & sb & sc & R1 & R2 & R3).
  assert (RA' : reads_all z st3 m (List.map (as_item st4) (List.map stored (with_first [INDEX_INITIAL] recs)))).
  { exists sa, sb, sc. split; [|auto]. rewrite <- R1, E4. exact E. }
  pose proof (reads_all_unique _ _ _ _ _ RA RA') as ->. rewrite <- EL, !map_map. unfold as_item, stored. cbn [fst snd]. symmetry. apply with_first_keys.
Qed.

(** The set [m] with one index was written earlier, while domain sets were to be stored:
    with labels or user numbers, or with raw indices that were within their bounds. *)
Definition set_before (name prod : str) (compr : Z) (sp : gst) (m : Z) : Prop :=
  exists pre rpre sp1 c id text uinfo body r rbody rd sq1 mid rmid,
    writes z name prod compr pre rpre sp1 /\ answers z sp1 gdxStoreDomainSets (ret 1) /\ Forall while_writing ((c :: body ++ [gdxDataWriteDone]) ++ mid) /\
    run z (c :: body ++ [gdxDataWriteDone]) sp1 = Done (r :: rbody ++ [rd], sq1) /\ run z mid sq1 = Done (rmid, sp) /\
    symbols z sp1 (m - 1) /\ r_code r = 1 /\ length rbody = length body /\ Forall (fun c => within c = true) body /\
    (c = gdxDataWriteStrStart id text 1 dt_set uinfo \/ c = gdxDataWriteMapStart id text 1 dt_set uinfo \/
     exists mms, raw_start c id text 1 dt_set uinfo mms /\ bounds_okb mms = true /\ Forall (fun kv => inside mms (firstn 1 (fst kv)) = true) (accepted_raw body rbody)).

Lemma buf_segment : forall cs rs J n, length rs = length cs -> Forall (fun c => within c = true) cs -> j_phase J = JBuf n ->
  j_phase (jrun cs rs J) = JBuf n.
Proof.
  induction cs as [|c cs IH]; intros [|r rs] J n L W P; try discriminate L; [exact P|]. cbn [jrun]. inversion W as [|? ? W1 W2]; subst. injection L as L.
  apply IH; [exact L|exact W2|]. unfold jstep. rewrite P. destruct c; try discriminate W1; try assumption; destruct (r_code r =? 1); first [assumption|reflexivity].
Qed.

Lemma set_noted : forall name prod compr sp m, set_before name prod compr sp m -> uel_count (g_dic sp) <= INT_MAX ->
  exists J recs, jinv z (new_head prod compr) [] J sp /\ noted_at J m recs.
Proof.
  intros name prod compr sp m (pre & rpre & sp1 & c & id & text & uinfo & body & r & rbody & rd & sq1 & mid & rmid & W & _ & FA & R1 & R2 & SY & C & L & WI & KIND) UC.
  apply Forall_app in FA. destruct FA as [FA FM]. destruct (writes_jinv _ _ _ _ _ _ _ W) as ((J0 & JI) & _).
  assert (X : exists J recs, jinv z (new_head prod compr) [] J sq1 /\ noted_at J m recs).
  { apply symbols_iff in SY.
    assert (KK : (c = gdxDataWriteStrStart id text 1 dt_set uinfo \/ c = gdxDataWriteMapStart id text 1 dt_set uinfo) \/
      exists mms, raw_start c id text 1 dt_set uinfo mms /\ bounds_okb mms = true /\ Forall (fun kv => inside mms (firstn 1 (fst kv)) = true) (accepted_raw body rbody)) by tauto.
    clear KIND. destruct KK as [KIND|(mms & RS & BO & IN)].
    - destruct (run_cons _ _ _ _ _ _ R1) as (r' & s1 & rs' & E1 & R3 & ER). injection ER as <- <-.
      assert (ST : starting c id text 1 dt_set uinfo) by (destruct KIND as [->| ->]; [right; right; right; reflexivity|right; right; left; reflexivity]).
      destruct (start_idle _ _ _ _ _ _ _ _ _ _ _ _ _ JI ST E1 C) as (PI & CN & _ & _). inversion FA as [|? ? [K1 K2] FA']; subst.
      pose proof (jinv_step z _ _ _ _ _ _ _ JI K1 K2 E1) as JI1.
      assert (JS : jstep c r J0 = mkJ (j_tab J0) (j_syms J0 ++ [None]) (JBuf m)).
      { unfold jstep. rewrite PI. assert (EM : zlen (j_syms J0) + 1 = m) by lia.
        destruct KIND as [->| ->]; unfold j_start; rewrite PI; destruct (Z.eqb_spec (r_code r) 1); try contradiction; rewrite EM; reflexivity. }
      rewrite JS in JI1. destruct (run_split _ _ _ _ _ _ R3) as (ra & sd & rb & R4 & R5 & ER). destruct (run_cons _ _ _ _ _ _ R5) as (x & s2 & y & E2 & R6 & ->).
      injection R6 as <- ->. apply app_inj_tail in ER. destruct ER as [<- <-]. apply Forall_app in FA'. destruct FA' as [FB FD].
      pose proof (jinv_run z _ _ _ _ _ _ _ JI1 FB R4) as JI2.
      pose proof (buf_segment body rbody (mkJ (j_tab J0) (j_syms J0 ++ [None]) (JBuf m)) m L WI eq_refl) as PH.
      destruct JI2 as [(t & G & WV & JR)|(PL & _)]; [|rewrite PH in PL; discriminate]. pose proof (jr_phase _ _ _ JR) as JP. rewrite PH in JP. destruct JP as (items & GC).
      assert (UD : uel_count (g_dic sd) <= INT_MAX).
      { assert (DD : during z ([gdxDataWriteDone] ++ mid) sd sp).
        { destruct (keeps_all _ FD) as [A1 A2]. destruct (keeps_all _ FM) as [B1 B2]. eapply (during_trans z _ _ _ sq1).
          - split; [exact A1|]. split; [exact A2|]. exists [rd]. cbn [run]. rewrite E2. reflexivity.
          - split; [exact B1|]. split; [exact B2|]. eauto. }
        eapply Z.le_trans; [|exact UC]. eapply (during_dic z (fun d => uel_count (g_dic sd) <= uel_count d)); [|exact DD|lia].
        intros c' d d' _ A LL. pose proof (ReadFacts.uels_grow c' d d' A). lia. }
      cbn [exec] in E2.
      destruct (write_done_buf_step _ _ _ _ _ _ _ _ _ WV GC E2) as (sy & sy' & o & (-> & (t' & W') & M & A & EV) & GS & X & _).
      destruct (X UD) as (recs & rs & -> & _). rewrite <- app_assoc in W'.
      exists (mkJ (e_tab (g_env sq1)) (zset (m - 1) (Some recs) (gR G)) JIdle), recs. split.
      + left. eexists (t ++ t'), _. split; [exact W'|]. constructor; cbn [j_tab j_syms j_phase gR gC].
        * reflexivity.
        * apply Forall2_refl. intros x. right. reflexivity.
        * split; [reflexivity|exact M].
      + split; [|exact I]. cbn [j_syms]. apply znth_zset_eq. destruct WV as [_ P]. unfold WriteInv.phase in P. rewrite GC in P. destruct P as [_ P]. eapply znth_Some. exact P.
    - destruct (raw_noted z _ _ _ _ _ _ _ _ _ _ _ _ _ _ _ _ JI FA R1 RS C L WI BO IN) as (J & JQ & NA).
      replace (sym_count (g_dic sp1) + 1) with m in NA by lia. eauto. }
  destruct X as (J & recs & JQ & NA). exists (jrun mid rmid J), recs. split; [eapply jinv_run; eassumption|apply noted_run; exact NA].
Qed.

Lemma set_has_bits : forall name prod compr sp m, set_before name prod compr sp m -> has_bits (g_dic sp) m.
Proof.
  intros name prod compr sp m (pre & rpre & sp1 & c & id & text & uinfo & body & r & rbody & rd & sq1 & mid & rmid & W & SD & FA & R1 & R2 & SY & C & L & WI & KIND).
  apply symbols_iff in SY. apply Forall_app in FA. destruct FA as [FA FM]. inversion FA as [|? ? FA1 FA2]; subst.
  destruct (run_cons _ _ _ _ _ _ R1) as (r' & s1 & rs' & E1 & R3 & ER). injection ER as <- <-.
  destruct SD as (x & SD). cbn [exec] in SD. unfold store_domain_sets in SD. injection SD as SD _. destruct (e_storedom (g_env sp1)) eqn:ES; [|discriminate].
  assert (ST : starting c id text 1 dt_set uinfo).
  { destruct KIND as [->|[->|(mms & RS & _)]]; [right; right; right; reflexivity|right; right; left; reflexivity|eapply raw_starting; exact RS]. }
  pose proof (start_bits _ _ _ _ _ _ _ _ ST E1 C ES) as HB. replace (sym_count (g_dic sp1) + 1) with m in HB by lia.
  destruct (keeps_all _ FA2) as [A1 A2]. destruct (keeps_all _ FM) as [B1 B2].
  assert (D1 : during z (body ++ [gdxDataWriteDone]) s1 sq1) by (split; [exact A1|]; split; [exact A2|]; eauto).
  assert (D2 : during z mid sq1 sp) by (split; [exact B1|]; split; [exact B2|]; eauto).
  eapply has_bits_during; [exact D2|]. eapply has_bits_during; [exact D1|exact HB].
Qed.

(** While symbol [n] is being written, the members of a set written before are those that
    will be read. *)
Lemma members_checked : forall name prod compr sp cs1 rs1 sd cs2 rs2 st st2 call0 rep0 m l k, set_before name prod compr sp m ->
  Forall while_writing cs1 -> run z cs1 sp = Done (rs1, sd) -> Forall while_writing cs2 -> run z cs2 sd = Done (rs2, st) ->
  reopened z name prod compr call0 rep0 st st2 -> w_cur (g_wrk sd) <> CNull -> bits_typed (g_dic sd) ->
  members_read z st2 m l -> 0 <= k -> violates (g_dic sd) (Some m) k = negb (existsb (Z.eqb k) l).
Proof.
  intros name prod compr sp cs1 rs1 sd cs2 rs2 st st2 call0 rep0 m l k SB F1 R1 F2 R2 RO WC BT MR K.
  destruct (keeps_all _ F1) as [A1 A2]. destruct (keeps_all _ F2) as [B1 B2].
  assert (D1 : during z cs1 sp sd) by (split; [exact A1|]; split; [exact A2|]; eauto).
  assert (D2 : during z cs2 sd st) by (split; [exact B1|]; split; [exact B2|]; eauto).
  pose proof (set_has_bits _ _ _ _ _ SB) as HB. apply (has_bits_during _ _ _ _ _ D1) in HB. destruct HB as (s & G & B).
  pose proof RO as (_ & _ & _ & _ & _ & _ & _ & _ & _ & (_ & UC & _) & _).
  assert (UP : uel_count (g_dic sp) <= INT_MAX).
  { eapply Z.le_trans; [|exact UC]. eapply (during_dic z (fun d => uel_count (g_dic sp) <= uel_count d)); [|eapply during_trans; [exact D1|exact D2]|lia].
    intros c' d d' _ A LL. pose proof (ReadFacts.uels_grow c' d d' A). lia. }
  destruct (set_noted _ _ _ _ _ SB UP) as (J & recs & JI & NA).
  pose proof (jinv_run z _ _ _ _ _ _ _ JI F1 R1) as JD. pose proof (noted_run cs1 rs1 _ _ _ NA) as ND.
  pose proof (jinv_run z _ _ _ _ _ _ _ JD F2 R2) as JT. pose proof (noted_run cs2 rs2 _ _ _ ND) as NT.
  destruct (BT _ _ G B) as [TS DS]. pose proof G as GZ. apply get_sym_znth in GZ. destruct GZ as (nm & GZ).
  assert (SY : symbol z sd m nm 1 dt_set) by (apply symbol_iff; exists s; rewrite TS, DS; auto).
  apply (C29_symbols_stay _ _ _ _ _ _ _ _ D2) in SY. apply symbol_iff in SY. destruct SY as (sy & ZT & DT & TT).
  assert (EK : List.map fst recs = List.map (fun k => [k]) l) by (eapply members_agree; try eassumption; [lia|congruence]).
  destruct JD as [(t & GG & [CO _] & JR)|(_ & DE)]; [|exfalso; destruct DE as (_ & DE & _); congruence].
  pose proof (jr_syms _ _ _ JR) as JS. destruct (Forall2_znth_l _ _ _ _ _ JS (proj1 ND)) as (g & ZG & NG). destruct NG as [NG|NG]; [discriminate|]. subst g.
  destruct (Forall2_znth_r _ _ _ _ _ (co_blk _ _ _ _ _ CO) ZG) as (e & ZE & BK). assert (e = (nm, s)) by congruence. subst e. destruct BK as (_ & _ & BA). cbn [snd] in BA.
  unfold violates. rewrite G. destruct (sy_bits s) as [b|] eqn:BS; [|contradiction]. f_equal. destruct (BA b BS) as (_ & IFF). rewrite EK in IFF.
  unfold in_list. apply Bool.eq_iff_eq_true. rewrite !existsb_exists. split.
  - intros (x & I & E). apply Z.eqb_eq in E. subst x. apply IFF in I. destruct I as [_ I]. apply in_map_iff in I. destruct I as (y & EY & I). injection EY as ->. exists k. split; [exact I|apply Z.eqb_refl].
  - intros (x & I & E). apply Z.eqb_eq in E. subst x. exists k. split; [|apply Z.eqb_refl]. apply IFF. split; [exact K|]. apply in_map_iff. exists k. auto.
Qed.

(** ** Symbols with a domain *)

(** The index lists that the records of symbol [n] are checked against, one per index:
    the names [ids] given in state [s1], right after the start of the symbol in [sp], and
    the members of these sets, as the reader [st2] finds them. *)
Definition checked_doms (name prod : str) (compr : Z) (sp s1 st2 : gst) (n dim : Z) (ids : list str) (doms : list (option (list Z))) : Prop :=
  Forall2 (fun id dom => match dom with
                         | None => unchecked_domain z s1 n dim id
                         | Some l => exists m, checked_domain z s1 n id m /\ set_before name prod compr sp m /\ members_read z st2 m l
                         end) (firstn (Z.to_nat dim) ids) doms.

Lemma writes_snoc : forall name prod compr pre rpre sp c r s1, writes z name prod compr pre rpre sp -> while_writing c -> exec z c sp = Done (r, s1) ->
  writes z name prod compr (pre ++ [c]) (rpre ++ [r]) s1.
Proof.
  intros name prod compr pre rpre sp c r s1 W WC E. destruct (writes_last _ _ _ _ _ _ _ W) as (sta & FA & R & MORE). apply MORE.
  { apply Forall_app; split; [exact FA|constructor; [exact WC|constructor]]. } eapply run_app; [exact R|]. cbn [run]. rewrite E. reflexivity.
Qed.

Lemma domain_entries : forall name prod compr pre rpre sp c r s1 n s ids s2, writes z name prod compr pre rpre sp -> while_writing c -> exec z c sp = Done (r, s1) ->
  w_cur (g_wrk s1) = CSym n -> sym_count (g_dic s1) = n -> get_sym (g_dic s1) n = Some s -> sy_dim s = w_dim (g_wrk s1) ->
  w_wrb (g_wrk s1) = repeat None (w_dim (g_wrk s1)) -> exec z (gdxSymbolSetDomain ids) s1 = Done (ret 1, s2) ->
  Forall2 (dom_entry (g_dic s1) (e_bogus (g_env s1)) (w_dim (g_wrk s1)) n) (firstn (w_dim (g_wrk s1)) ids) (w_wrb (g_wrk s2)) /\
  ~ In (Some n) (w_wrb (g_wrk s2)) /\ bits_typed (g_dic s1) /\ aliases_refer_back z s1.
Proof.
  intros name prod compr pre rpre sp c r s1 n s ids s2 W WC E CU CN G SD WB H. pose proof (writes_snoc _ _ _ _ _ _ _ _ _ W WC E) as W1.
  assert (RB : aliases_refer_back z s1).
  { intros a k A. pose proof A as A'. apply alias_of_iff in A'. destruct A' as (nm & sy & ZN & T & U).
    destruct (C30_aliases_refer_back z _ _ _ _ nm (Z.of_nat (sy_dim sy)) (writes_in_writing _ _ _ _ _ _ _ W1) A) as [(-> & _)|(K & _)]; [apply symbol_iff; exists sy; auto| |lia].
    apply znth_Some in ZN. lia. }
  pose proof (writes_bits _ _ _ _ _ _ _ W1) as BT.
  assert (FE : Forall2 (dom_entry (g_dic s1) (e_bogus (g_env s1)) (w_dim (g_wrk s1)) n) (firstn (w_dim (g_wrk s1)) ids) (w_wrb (g_wrk s2))).
  { cbn [exec] in H. unfold symbol_set_domain, checked in H. destruct (mode_in _ _); [|discriminate]. rewrite CU, G in H.
    destruct (Nat.ltb_spec (length ids) (sy_dim s)) as [|LE]; [discriminate|]. cbv zeta in H. obind_inv H. destruct x as [[go res] st']. destruct go; cbn [negb] in H; [|discriminate].
    injection H as HR <-. destruct res; [|discriminate].
    destruct (set_domains_entries _ _ (g_dic s1) _ _ _ _ E0) as (es & E1 & E2).
    - intros k. change (g_dic (upd_dic ?f s1)) with (f (g_dic s1)). cbv beta. apply (sketch_doms (g_dic s1) n (fun _ => Some (repeat 0 (sy_dim s)))).
    - change (g_dic (upd_dic ?f s1)) with (f (g_dic s1)). cbv beta. apply same_keys_upd.
    - change (g_wrk (upd_dic _ s1)) with (g_wrk s1). rewrite WB, repeat_length, firstn_length. lia.
    - change (g_wrk (upd_dic _ s1)) with (g_wrk s1). rewrite WB. cbn [skipn]. apply Forall_forall. intros x I. apply repeat_spec in I. exact I.
    - change (w_wrb (g_wrk (set_g_mode _ st'))) with (w_wrb (g_wrk st')). rewrite E1. cbn [firstn app].
      change (g_wrk (upd_dic _ s1)) with (g_wrk s1) in E2. change (g_env (upd_dic _ s1)) with (g_env s1) in E2. rewrite SD in E2. exact E2. }
  split; [exact FE|]. split; [|auto]. intros I. clear - FE I BT RB CN G SD. induction FE as [|id e ids2 es DE F IH]; [destruct I|].
  destruct I as [->|I]; [|apply IH; assumption]. exact (entry_not_self z s1 _ _ _ _ _ s BT RB CN G SD DE eq_refl).
Qed.

Definition dom_check (d : dic) (e : option Z) (dom : option (list Z)) : Prop :=
  forall k, 0 <= k -> violates d e k = match dom with None => false | Some l => negb (existsb (Z.eqb k) l) end.
Lemma doms_check : forall name prod compr sp s1 st2 n dim ids doms es b d, checked_doms name prod compr sp s1 st2 n dim ids doms -> 0 <= dim ->
  Forall2 (dom_entry (g_dic s1) b (Z.to_nat dim) n) (firstn (Z.to_nat dim) ids) es -> bits_typed (g_dic s1) -> aliases_refer_back z s1 ->
  (forall m, has_bits (g_dic sp) m -> has_bits (g_dic s1) m) ->
  (forall m l k, set_before name prod compr sp m -> members_read z st2 m l -> 0 <= k -> violates d (Some m) k = negb (existsb (Z.eqb k) l)) ->
  Forall2 (dom_check d) es doms.
Proof.
  intros name prod compr sp s1 st2 n dim ids doms es b d CD DP FE BT RB HB V. unfold checked_doms in CD. revert es FE. induction CD as [|id dom ids' doms DD CD IH]; intros es FE;
    inversion FE as [|? e ? es' DE FE']; subst; constructor; [|apply IH; exact FE'].
  intros k K. destruct dom as [l|].
  - destruct DD as (m & D1 & D2 & D3). rewrite (entry_checked _ _ _ _ _ _ _ _ RB DE D1 (HB _ (set_has_bits _ _ _ _ _ D2))). eapply V; eassumption.
  - rewrite (entry_unchecked _ _ _ _ _ _ _ BT RB DE); [reflexivity|]. rewrite Z2Nat.id by exact DP. exact DD.
Qed.
End Z.

(** The indices are members of the domains. *)
Fixpoint allowed (doms : list (option (list Z))) (keys : list Z) : bool :=
  match doms, keys with
  | dom :: doms', k :: keys' => match dom with None => true | Some l => existsb (Z.eqb k) l end && allowed doms' keys'
  | _, _ => true
  end.
Lemma allowed_spec : forall d es doms keys, Forall2 (dom_check d) es doms -> Forall (fun k => 0 <= k) keys -> any_violation d es keys = negb (allowed doms keys).
Proof.
  intros d es doms keys F. revert keys. induction F as [|e dom es doms D F IH]; intros [|k keys] K; cbn [any_violation allowed]; try reflexivity.
  inversion K as [|? ? K1 K2]; subst. rewrite (D k K1), (IH keys K2), Bool.negb_andb. f_equal. destruct dom; reflexivity.
Qed.
