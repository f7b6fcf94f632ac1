(** * DicInv: what every sequence of writing calls keeps true of the dictionaries

    The dictionaries of a file being written can always be stored in the format, provided
    its counters fit: texts are valid strings, numbers refer to existing entries. *)

From Coq Require Import String.
From Verif Require Import Base Prim Values Records LinkedData StrHash IntMap Strings AStream BufStream State
  FileImage ApiCore ApiFile ApiWrite Api FileFacts StreamFacts OpenFacts.
Open Scope Z_scope.
Open Scope list_scope.

(** ** Arguments

    What the C types of the interface guarantee: 32-bit integers, 64-bit doubles, strings
    of nonzero bytes. *)
Definition start_ok (n t : str) (d ty u : Z) : Prop := str_ok n /\ str_ok t /\ int_ok d /\ int_ok ty /\ int_ok u.
Definition call_ok (c : call) : Prop :=
  match c with
  | gdxOpenWriteEx n p k => str_ok n /\ str_ok p /\ int_ok k
  | gdxOpenReadEx n k => str_ok n /\ int_ok k
  | gdxOpenAppend n => str_ok n
  | gdxDataWriteRawStart n t d ty u | gdxDataWriteMapStart n t d ty u | gdxDataWriteStrStart n t d ty u => start_ok n t d ty u
  | gdxDataWriteRawStartKeyBounds n t d ty u lo hi => start_ok n t d ty u /\ Forall int_ok lo /\ Forall int_ok hi
  | gdxDataWriteRaw k v | gdxDataWriteMap k v => Forall int_ok k /\ Forall u64_ok v
  | gdxDataWriteStr k v => Forall str_ok k /\ Forall u64_ok v
  | gdxSymbolSetDomain ids => Forall str_ok ids
  | gdxSymbolSetDomainX n ids => int_ok n /\ Forall str_ok ids
  | gdxAddAlias a b => str_ok a /\ str_ok b
  | gdxSymbolAddComment n t => int_ok n /\ str_ok t
  | gdxAddSetText t => str_ok t
  | gdxSetTextNodeNr n k => int_ok n /\ int_ok k
  | gdxUELRegisterRaw s | gdxUELRegisterStr s => str_ok s
  | gdxUELRegisterMap n s => int_ok n /\ str_ok s
  | gdxRenameUEL o n => str_ok o /\ str_ok n
  | gdxAcronymAdd n t i => str_ok n /\ str_ok t /\ int_ok i
  | gdxAcronymSetInfo k n t i => int_ok k /\ str_ok n /\ str_ok t /\ int_ok i
  | gdxSetSpecialValues v | gdxSetReadSpecialValues v => Forall u64_ok v
  | _ => True
  end.

(** ** Texts *)

Lemma firstn_Forall : forall {A} (P : A -> Prop) n l, Forall P l -> Forall P (firstn n l).
Proof.
  intros A P n l H. revert n. induction H; intros [|n]; cbn; constructor; auto.
Qed.

Lemma make_good_ok : forall s, str_ok s -> str_ok (make_good s).
Proof.
  intros s. unfold make_good. generalize (or_introl eq_refl : 0 = 0 \/ char_ok 0). generalize 0 at 2 3 4 as q.
  intros q Q F. revert q Q. induction F as [| c s H F IH]; intros q Q; cbn [make_good_from]; [constructor|].
  unfold char_ok in *. destruct ((c =? 34) || (c =? 39)) eqn:E.
  - assert (1 <= (if q =? 0 then c else q) < 256). { destruct (Z.eqb_spec q 0); [lia|]. destruct Q; lia. }
    constructor; [assumption|]. apply IH. right. assumption.
  - constructor; [destruct (c <? 32); unfold char_ok; lia|]. apply IH. assumption.
Qed.

Lemma make_good_zlen : forall s, zlen (make_good s) = zlen s.
Proof. intros s. unfold zlen, make_good. rewrite make_good_length. reflexivity. Qed.

Lemma cut255_ok : forall s, str_ok s -> text_ok (cut255 s).
Proof.
  intros s H. split; [apply firstn_Forall; assumption|]. unfold cut255, zlen. rewrite firstn_length. lia.
Qed.

Lemma make_cut_ok : forall s, str_ok s -> text_ok (make_good (cut255 s)).
Proof.
  intros s H. destruct (cut255_ok s H) as [A B]. split; [apply make_good_ok; assumption|]. rewrite make_good_zlen. assumption.
Qed.

Lemma assign_expl_ok : forall s, str_ok s -> str_ok (assign_expl s).
Proof.
  intros s H. unfold assign_expl. destruct (zlen s <? 256); [assumption|]. apply firstn_Forall.
  apply Forall_app. split; [repeat constructor; lia|]. apply Forall_app. split; [apply firstn_Forall; assumption|].
  repeat constructor; lia.
Qed.

Lemma expl_ok : forall s, str_ok s -> text_ok (make_good (assign_expl s)).
Proof.
  intros s H. split; [apply make_good_ok, assign_expl_ok; assumption|]. rewrite make_good_zlen. apply assign_expl_length.
Qed.

Lemma ident_ok : forall s, good_ident s = true -> text_ok s.
Proof.
  intros s H. apply good_ident_spec in H. destruct H as (L & c & r & -> & A & B). split; [|lia].
  unfold letter, ident_char, letter in *. constructor; [unfold char_ok; lia|].
  eapply Forall_impl; [|exact B]. cbn. intros x. unfold char_ok. lia.
Qed.

Lemma trim_store_ok : forall s t, trim_store s = Done t -> str_ok s -> t = trim_right s /\ str_ok t.
Proof.
  intros s t H F. unfold trim_store in H.
  destruct ((zlen (trim_right s) =? zlen s) || (zlen (trim_right s) <=? 255)); [|discriminate]. injection H as <-.
  split; [reflexivity|]. unfold str_ok in *. rewrite Forall_forall in *. intros c I. apply F. apply trim_right_incl. assumption.
Qed.

Lemma label_text : forall s, str_ok s -> good_uel s = true -> text_ok s.
Proof. intros s H G. apply good_uel_spec in G. destruct G as [L _]. split; [assumption|lia]. Qed.

(** ** Symbols *)

(** A reference into a table of [n] entries, or at least a 32-bit number. *)
Definition ref_ok (n x : Z) : Prop := int_ok x \/ 0 <= x <= n.
Definition refs_ok (n : Z) (dim : nat) (o : option (list Z)) : Prop :=
  match o with None => True | Some l => length l = dim /\ Forall (ref_ok n) l end.

Record sym_wf (nn nd np : Z) (s : sym) : Prop := mkSW {
  sw_dim : (sy_dim s <= 20)%nat;
  sw_type : byte_ok (sy_type s);
  sw_uinfo : ref_ok nn (sy_uinfo s);
  sw_count : INT_MIN <= sy_count s;
  sw_errs : INT_MIN <= sy_errs s;
  sw_pos : i64_ok (sy_pos s) \/ 0 <= sy_pos s <= np;
  sw_expl : text_ok (sy_expl s);
  sw_doms : refs_ok nn (sy_dim s) (sy_doms s);
  sw_dstrs : refs_ok nd (sy_dim s) (sy_dstrs s);
  sw_coms : Forall text_ok (sy_comments s)
}.

Lemma ref_ok_le : forall n n' x, n <= n' -> ref_ok n x -> ref_ok n' x.
Proof. unfold ref_ok. intros n n' x L [H|H]; [left; exact H|right; lia]. Qed.
Lemma refs_ok_le : forall n n' d o, n <= n' -> refs_ok n d o -> refs_ok n' d o.
Proof.
  intros n n' d [l|] L; [|auto]. intros [A B]. split; [assumption|]. eapply Forall_impl; [|exact B].
  intros. eapply ref_ok_le; eauto.
Qed.

Lemma sym_wf_le : forall nn nd np nn' nd' np' s, nn <= nn' -> nd <= nd' -> np <= np' ->
  sym_wf nn nd np s -> sym_wf nn' nd' np' s.
Proof.
  intros nn nd np nn' nd' np' s A B C []. constructor; auto.
  - eapply ref_ok_le; eauto.
  - destruct sw_pos0; [left|right]; [assumption|lia].
  - eapply refs_ok_le; eauto.
  - eapply refs_ok_le; eauto.
Qed.

(** ** The dictionaries *)

Definition user_ok (d : dic) : Prop :=
  im_inv (d_usr d) /\ forall k, im_get (d_usr d) k = -1 \/ 1 <= im_get (d_usr d) k <= uel_count d.

Definition acro_wf (a : acro) : Prop := str_ok (ac_name a) /\ str_ok (ac_text a) /\ int_ok (ac_map a).

Record dinv (np : Z) (d : dic) : Prop := mkDI {
  di_names : Forall (fun e => text_ok (fst e) /\ sym_wf (sym_count d) (zlen (d_dstrs d)) np (snd e)) (d_names d);
  di_uels : Forall (fun e => text_ok (fst e)) (d_uels d);
  di_texts : exists l, d_texts d = Some l /\ Forall (fun e => text_ok (fst e)) l /\ NoDup (List.map fst l);
  di_acros : Forall acro_wf (d_acros d);
  di_dstrs : Forall (fun e => text_ok (fst e)) (d_dstrs d);
  di_usr : user_ok d;
  di_nn : d_nn d = true;
  di_un : d_un d = true;
  di_dn : d_dn d = true
}.

Lemma dinv_le : forall np np' d, np <= np' -> dinv np d -> dinv np' d.
Proof.
  intros np np' d L []. constructor; auto. eapply Forall_impl; [|exact di_names0]. intros e [A B]. split; [assumption|].
  eapply sym_wf_le; [| | |exact B]; lia.
Qed.

Lemma znth_Forall : forall {A} (P : A -> Prop) l i a, Forall P l -> znth l i = Some a -> P a.
Proof.
  intros A P l i a F E. unfold znth in E. destruct (i <? 0); [discriminate|]. rewrite Forall_forall in F.
  apply F. eapply nth_error_In. exact E.
Qed.

Lemma set_nth_Forall : forall {A} (P : A -> Prop) n a l, Forall P l -> P a -> Forall P (set_nth n a l).
Proof.
  intros A P n a l F. revert n. induction F; intros n Q; [destruct n; constructor|].
  destruct n; cbn; constructor; auto.
Qed.
Lemma zset_Forall : forall {A} (P : A -> Prop) i a l, Forall P l -> P a -> Forall P (zset i a l).
Proof. intros A P i a l F Q. unfold zset. destruct (i <? 0); [assumption|]. apply set_nth_Forall; assumption. Qed.

Lemma get_sym_wf : forall np d n s, dinv np d -> get_sym d n = Some s -> sym_wf (sym_count d) (zlen (d_dstrs d)) np s.
Proof.
  intros np d n s I E. unfold get_sym in E. destruct (znth (d_names d) (n - 1)) as [e|] eqn:Q; [|discriminate].
  injection E as <-. destruct (znth_Forall _ _ _ _ (di_names _ _ I) Q) as [_ H]. exact H.
Qed.

Lemma upd_sym_names : forall n f d, zlen (d_names (upd_sym n f d)) = zlen (d_names d).
Proof.
  intros n f d. unfold upd_sym. destruct (znth (d_names d) (n - 1)); [|reflexivity]. cbn. apply zset_length.
Qed.
Lemma upd_sym_fields : forall n f d,
  d_uels (upd_sym n f d) = d_uels d /\ d_usr (upd_sym n f d) = d_usr d /\ d_texts (upd_sym n f d) = d_texts d /\
  d_acros (upd_sym n f d) = d_acros d /\ d_dstrs (upd_sym n f d) = d_dstrs d /\
  d_nn (upd_sym n f d) = d_nn d /\ d_un (upd_sym n f d) = d_un d /\ d_dn (upd_sym n f d) = d_dn d.
Proof. intros n f d. unfold upd_sym. destruct (znth (d_names d) (n - 1)); repeat split. Qed.

Lemma dinv_upd_sym : forall np n f d, dinv np d ->
  (forall s, get_sym d n = Some s -> sym_wf (sym_count d) (zlen (d_dstrs d)) np s -> sym_wf (sym_count d) (zlen (d_dstrs d)) np (f s)) ->
  dinv np (upd_sym n f d).
Proof.
  intros np n f d I H. destruct (upd_sym_fields n f d) as (E1 & E2 & E3 & E4 & E5 & E6 & E7 & E8).
  pose proof (upd_sym_names n f d) as E0. destruct I. constructor; rewrite ?E3, ?E4, ?E5, ?E6, ?E7, ?E8; auto.
  - unfold sym_count in *. rewrite E0. unfold upd_sym. destruct (znth (d_names d) (n - 1)) as [e|] eqn:Q; [|assumption].
    cbn [d_names set_d_names]. apply zset_Forall; [assumption|]. cbn [fst snd].
    destruct (znth_Forall _ _ _ _ di_names0 Q) as [A B]. split; [assumption|]. apply H; [|assumption].
    unfold get_sym. rewrite Q. reflexivity.
  - rewrite E1. assumption.
  - unfold user_ok, uel_count in *. rewrite E1, E2. assumption.
Qed.

Lemma dinv_add_sym : forall np d name s, dinv np d -> text_ok name ->
  sym_wf (sym_count d + 1) (zlen (d_dstrs d)) np s -> dinv np (set_d_names (d_names d ++ [(name, s)]) d).
Proof.
  intros np d name s [] T W. constructor; auto. unfold sym_count in *. cbn [d_names set_d_names d_dstrs].
  rewrite zlen_app. change (zlen [(name, s)]) with 1. apply Forall_app. split.
  - eapply Forall_impl; [|exact di_names0]. intros e [A B]. split; [assumption|]. eapply sym_wf_le; [| | |exact B]; lia.
  - constructor; [|constructor]. split; assumption.
Qed.

Lemma dinv_acros : forall np d l, dinv np d -> Forall acro_wf l -> dinv np (set_d_acros l d).
Proof. intros np d l [] H. constructor; auto. Qed.

Lemma dinv_status : forall np d s, dinv np d -> dinv np (set_d_status s d).
Proof. intros np d s []. constructor; auto. Qed.

Lemma dinv_dstrs : forall np d t, dinv np d -> Forall (fun e => text_ok (fst e)) (d_dstrs d ++ t) ->
  dinv np (set_d_dstrs (d_dstrs d ++ t) d).
Proof.
  intros np d t [] H. constructor; auto. unfold sym_count in *. cbn [d_names set_d_dstrs d_dstrs].
  eapply Forall_impl; [|exact di_names0]. intros e [A B]. split; [assumption|]. eapply sym_wf_le; [| | |exact B]; try lia.
  rewrite zlen_app. pose proof (zlen_nonneg t). lia.
Qed.

(** *** Labels *)

Lemma sl_add_cases : forall {T} ci (l : list (str * T)) s t l' n, sl_add ci l s t = (l', n) ->
  (l' = l /\ sl_find ci l s = Some n) \/ (l' = l ++ [(s, t)] /\ sl_find ci l s = None /\ n = zlen l).
Proof.
  intros T ci l s t l' n H. unfold sl_add in H. destruct (sl_find ci l s) as [m|]; injection H as <- <-; auto.
Qed.

Lemma sl_find_range : forall {T} ci (l : list (str * T)) s n, sl_find ci l s = Some n -> 0 <= n < zlen l.
Proof. intros T ci l s n H. destruct (sl_find_Some _ _ _ _ H) as (e & E & _). eapply znth_Some. exact E. Qed.

Lemma uel_add_spec : forall s d n d', uel_add s d = (n, d') ->
  exists t, d' = set_d_uels (d_uels d ++ t) d /\ (t = [] \/ t = [(s, -1)]) /\ 1 <= n <= uel_count d'.
Proof.
  intros s d n d' H. unfold uel_add in H. destruct (sl_add true (d_uels d) s (-1)) as [l k] eqn:E. injection H as <- <-.
  destruct (sl_add_cases _ _ _ _ _ _ E) as [[-> F]|(-> & F & ->)].
  - exists []. rewrite app_nil_r. split; [reflexivity|]. split; [auto|]. pose proof (sl_find_range _ _ _ _ F).
    unfold uel_count. cbn [d_uels set_d_uels]. lia.
  - exists [(s, -1)]. split; [reflexivity|]. split; [auto|]. unfold uel_count. cbn [d_uels set_d_uels].
    rewrite zlen_app. change (zlen [(s, -1)]) with 1. pose proof (zlen_nonneg (d_uels d)). lia.
Qed.

Lemma user_ok_grow : forall d t, user_ok d -> user_ok (set_d_uels (d_uels d ++ t) d).
Proof.
  intros d t [A B]. split; [exact A|]. intros k. unfold uel_count in *. cbn [d_uels set_d_uels d_usr]. rewrite zlen_app.
  pose proof (zlen_nonneg t). destruct (B k); [left|right]; [assumption|lia].
Qed.

Lemma dinv_uels : forall np d t, dinv np d -> Forall (fun e => text_ok (fst e)) t ->
  dinv np (set_d_uels (d_uels d ++ t) d).
Proof.
  intros np d t [] F. constructor; auto.
  - apply Forall_app. split; assumption.
  - apply user_ok_grow. assumption.
Qed.

Lemma dinv_uel_add : forall np s d n d', dinv np d -> text_ok s -> uel_add s d = (n, d') -> dinv np d'.
Proof.
  intros np s d n d' I T H. destruct (uel_add_spec _ _ _ _ H) as (t & -> & [-> | ->] & _); apply dinv_uels; auto.
  all: constructor; [exact T|constructor].
Qed.

Lemma user_map_range : forall d i v, user_map d i = Done v -> 1 <= i <= uel_count d.
Proof.
  intros d i v H. unfold user_map in H. destruct (znth (d_uels d) (i - 1)) eqn:E; [|discriminate].
  apply znth_Some in E. unfold uel_count. lia.
Qed.

(** Giving a label a user number. *)
Lemma dinv_set_user : forall np d i n d1 m st, dinv np d -> set_user_map i n d = Done d1 -> im_set (d_usr d1) n i = Done m ->
  n <= INT_MAX -> dinv np (set_d_status st (set_d_usr m d1)) /\
  d_uels d1 = zset (i - 1) (match znth (d_uels d) (i - 1) with Some e => fst e | None => [] end, n) (d_uels d) /\
  d1 = set_d_uels (d_uels d1) d.
Proof.
  intros np d i n d1 m st I H M L. unfold set_user_map in H. destruct (znth (d_uels d) (i - 1)) as [e|] eqn:E; [|discriminate].
  injection H as <-. destruct I. split; [|split; reflexivity]. constructor; auto.
  - apply zset_Forall; [assumption|]. exact (znth_Forall _ _ _ _ di_uels0 E).
  - cbn [d_usr set_d_uels] in M. destruct di_usr0 as [A B].
    assert (0 <= n). { unfold im_set in M. destruct (Z.ltb_spec n 0); [discriminate|assumption]. }
    destruct (im_set_spec (d_usr d) n i A ltac:(lia)) as (m' & M' & A' & G & _). rewrite M in M'. injection M' as <-.
    split; [exact A'|]. intros k. unfold uel_count in *. cbn [d_uels d_usr set_d_status set_d_usr set_d_uels]. rewrite zset_length.
    rewrite G. apply znth_Some in E. destruct (Z.eqb_spec k n); [right; lia|]. apply B.
Qed.

Lemma dinv_new_usr_uel : forall np en d v d', dinv np d -> new_usr_uel en d = Done (v, d') -> dinv np d' /\ d_names d' = d_names d /\ zlen (d_uels d') = zlen (d_uels d).
Proof.
  intros np en d v d' I H. unfold new_usr_uel in H. destruct (user_map d en) as [u|]; [|discriminate]. cbn [obind] in H.
  destruct (u <? 0).
  - destruct (int_okb (im_high (d_usr d) + 1)) eqn:K; [|discriminate].
    destruct (set_user_map en (im_high (d_usr d) + 1) d) as [d1|] eqn:S1; [|discriminate]. cbn [obind] in H.
    destruct (im_set (d_usr d1) (im_high (d_usr d) + 1) en) as [m|] eqn:S2; [|discriminate]. cbn [obind] in H. injection H as <- <-.
    unfold int_okb in K. destruct (dinv_set_user np d en _ d1 m None I S1 S2) as (A & B & C); [lia|].
    split; [exact A|]. rewrite C. split; [reflexivity|]. cbn [d_uels set_d_status set_d_usr set_d_uels]. rewrite B. apply zset_length.
  - injection H as <- <-. split; [apply dinv_status; assumption|]. split; reflexivity.
Qed.

Lemma dinv_add_usr_new : forall np s d v d', dinv np d -> text_ok s -> add_usr_new s d = Done (v, d') ->
  dinv np d' /\ d_names d' = d_names d /\ zlen (d_uels d) <= zlen (d_uels d').
Proof.
  intros np s d v d' I T H. unfold add_usr_new in H. destruct (uel_add s d) as [en d1] eqn:E.
  pose proof (dinv_uel_add _ _ _ _ _ I T E) as I1. destruct (uel_add_spec _ _ _ _ E) as (t & -> & _).
  destruct (dinv_new_usr_uel _ _ _ _ _ I1 H) as (A & B & C). split; [exact A|]. split; [exact B|].
  rewrite C. cbn [d_uels set_d_uels]. rewrite zlen_app. pose proof (zlen_nonneg t). lia.
Qed.

Lemma dinv_add_usr_indx : forall np s n d v d', dinv np d -> text_ok s -> int_ok n -> add_usr_indx_new s n d = Done (v, d') ->
  dinv np d' /\ d_names d' = d_names d /\ zlen (d_uels d) <= zlen (d_uels d').
Proof.
  intros np s n d v d' I T N H. unfold add_usr_indx_new in H. destruct (uel_add s d) as [en d1] eqn:E.
  pose proof (dinv_uel_add _ _ _ _ _ I T E) as I1. destruct (uel_add_spec _ _ _ _ E) as (t & D1 & _).
  assert (L : zlen (d_uels d) <= zlen (d_uels d1)). { subst. cbn. rewrite zlen_app. pose proof (zlen_nonneg t). lia. }
  assert (Nm : d_names d1 = d_names d) by (subst; reflexivity).
  destruct (user_map d1 en) as [u|]; [|discriminate]. cbn [obind] in H. destruct (u <? 0).
  - destruct (set_user_map en n d1) as [d2|] eqn:S1; [|discriminate]. cbn [obind] in H.
    destruct (im_set (d_usr d2) n en) as [m|] eqn:S2; [|discriminate]. cbn [obind] in H. injection H as <- <-.
    unfold int_ok in N. destruct (dinv_set_user np d1 en _ d2 m None I1 S1 S2) as (A & B & C); [lia|].
    split; [exact A|]. rewrite C. split; [exact Nm|]. cbn [d_uels set_d_status set_d_usr set_d_uels]. rewrite B, zset_length. exact L.
  - destruct (u =? n); injection H as <- <-; (split; [apply dinv_status; assumption|]; split; assumption).
Qed.

(** *** Acronyms *)

Lemma to_int32_ok : forall v, int_ok (to_int32 v).
Proof.
  intros v. unfold to_int32, signed, int_ok, INT_MIN, INT_MAX. change (2^(32-1)) with 2147483648. change (2^32) with 4294967296.
  pose proof (Z.mod_pos_bound v 4294967296 ltac:(lia)).
  destruct (Z.ltb_spec (v mod 4294967296) 2147483648); lia.
Qed.

Lemma d_round_ok : forall x m, d_round x = Some m -> int_ok m.
Proof.
  intros x m H. unfold d_round in H. destruct (f_trunc _); [|discriminate]. injection H as <-. apply to_int32_ok.
Qed.

Lemma check_acros_wf : forall vs l l', check_acros vs l = Done l' -> Forall acro_wf l -> Forall acro_wf l'.
Proof.
  induction vs as [| v vs IH]; intros l l' H F; cbn [check_acros] in H; [injection H as <-; assumption|].
  destruct v as [m|x]; [eauto|]. destruct (fleb SV_ACR x); [|eauto].
  destruct (d_round (fdiv x SV_ACR)) as [m|] eqn:R; [|discriminate]. apply IH in H; [assumption|].
  unfold check_entry. destruct (acro_entry m l <? 0); [|assumption]. apply Forall_app. split; [assumption|].
  constructor; [|constructor]. split; [constructor|]. split; [constructor|]. cbn [ac_map]. eapply d_round_ok. exact R.
Qed.

(** *** Domain names *)

Lemma dom_strings_spec : forall ids l ns l', dom_strings ids l = (ns, l') ->
  length ns = length ids /\ (exists t, l' = l ++ t /\ Forall (fun e => text_ok (fst e)) t) /\ Forall (fun n => 0 <= n <= zlen l') ns.
Proof.
  induction ids as [| id ids IH]; intros l ns l' H; cbn [dom_strings] in H.
  - injection H as <- <-. split; [reflexivity|]. split; [exists []; rewrite app_nil_r; split; [reflexivity|constructor]|constructor].
  - destruct (good_ident id) eqn:G.
    + destruct (sl_find true l id) as [n|] eqn:F.
      * destruct (dom_strings ids l) as [ns1 l1] eqn:E. injection H as <- <-.
        destruct (IH _ _ _ E) as (A & (t & -> & T) & C). split; [cbn; lia|]. split; [eauto|].
        constructor; [|assumption]. pose proof (sl_find_range _ _ _ _ F). rewrite zlen_app. pose proof (zlen_nonneg t). lia.
      * destruct (dom_strings ids (l ++ [(id, tt)])) as [ns1 l1] eqn:E. injection H as <- <-.
        destruct (IH _ _ _ E) as (A & (t & -> & T) & C). split; [cbn; lia|]. split.
        { exists ((id, tt) :: t). rewrite <- app_assoc. split; [reflexivity|]. constructor; [apply ident_ok; exact G|assumption]. }
        constructor; [|assumption]. rewrite !zlen_app. change (zlen [(id, tt)]) with 1. pose proof (zlen_nonneg t).
        pose proof (zlen_nonneg l). lia.
    + destruct (dom_strings ids l) as [ns1 l1] eqn:E. injection H as <- <-.
      destruct (IH _ _ _ E) as (A & (t & -> & T) & C). split; [cbn; lia|]. split; [eauto|].
      constructor; [|assumption]. rewrite zlen_app. pose proof (zlen_nonneg t). pose proof (zlen_nonneg l). lia.
Qed.

Lemma forallb_Forall_char : forall s, forallb (fun c => (1 <=? c) && (c <? 256)) s = true -> str_ok s.
Proof.
  intros s H. rewrite forallb_forall in H. apply Forall_forall. intros c I. specialize (H c I). unfold char_ok. lia.
Qed.

Lemma alias_text_ok : forall nm t, alias_text nm = Done t -> str_ok nm -> text_ok t.
Proof.
  intros nm t H F. unfold alias_text in H. destruct (Z.leb_spec (zlen (s2z "Aliased with " ++ nm)) 255).
  - assert (E : t = s2z "Aliased with " ++ nm) by congruence. clear H. subst t. split; [|assumption].
    assert (P : Forall char_ok (s2z "Aliased with ")).
    { apply forallb_Forall_char. reflexivity. }
    revert P. generalize (s2z "Aliased with ") as p. intros p P. apply Forall_app. split; assumption.
  - destruct (zlen (s2z "Aliased with " ++ nm) =? 256); [discriminate|]. injection H as <-. split; [constructor|].
    unfold zlen. cbn. lia.
Qed.
