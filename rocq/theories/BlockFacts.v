(** * BlockFacts: what DoWrite puts into a data block is what DoRead finds there

    [wr_recs] describes the bytes of a sequence of records; [rd_seq] describes a sequence
    of record reads. *)

From Verif Require Import Base Prim Values Records FileImage FileFacts.

(** A stored record: indices and stored values. *)
Definition srec := (list Z * list sval)%type.

(** The bytes of records written one after the other (gxfile.cpp 1234-1380), with the
    last indices. *)
Inductive wr_recs (bo : border) (dim : nat) (mms : list (Z * Z)) : list srec -> list Z -> list Z -> Prop :=
| wr_nil : wr_recs bo dim mms [] [] (repeat INDEX_INITIAL dim)
| wr_snoc : forall recs bs last k vs b last',
    wr_recs bo dim mms recs bs last ->
    write_keys bo dim mms last (zlen recs) k = Done (WBytes b last') ->
    wr_recs bo dim mms (recs ++ [(k, vs)]) (bs ++ b ++ List.concat (List.map (enc_sval bo) vs)) last'.

(** Reading records one after the other (gxfile.cpp 1382-1466): from the indices [rl] and
    the data [l], the records [rs] are returned, leaving [rl'] and [l']. *)
Inductive rd_seq (bo : border) (delta : Z) (dim dsize : nat) (mms : list (Z * Z))
  : list Z -> list Z -> list (Z * list Z * list sval) -> list Z -> list Z -> Prop :=
| rs_nil : forall rl l, rd_seq bo delta dim dsize mms rl l [] rl l
| rs_cons : forall rl l af ks vs l1 rs rl' l',
    p_record bo delta dim dsize mms rl l = Done (Some (af, ks, vs), l1) ->
    rd_seq bo delta dim dsize mms ks l1 rs rl' l' ->
    rd_seq bo delta dim dsize mms rl l ((af, ks, vs) :: rs) rl' l'.

(** The first position (from 1) at which a record differs from the one before it. *)
Definition dim_first (prev keys : list Z) : Z :=
  match first_diff keys prev with Some i => Z.of_nat (S i) | None => 0 end.
Fixpoint with_first (prev : list Z) (rs : list srec) : list (Z * list Z * list sval) :=
  match rs with
  | [] => []
  | (k, v) :: r => (dim_first prev k, k, v) :: with_first k r
  end.

Definition last_keys (dflt : list Z) (rs : list srec) : list Z := last (List.map fst rs) dflt.

Definition rec_ok (mms : list (Z * Z)) (dsize : nat) (r : srec) : Prop :=
  Forall2 in_bounds mms (fst r) /\ length (snd r) = dsize /\ Forall sval_ok (snd r).

Lemma rd_seq_snoc : forall bo delta dim dsize mms rl l rs rl1 l1 af ks vs l2,
  rd_seq bo delta dim dsize mms rl l rs rl1 l1 ->
  p_record bo delta dim dsize mms rl1 l1 = Done (Some (af, ks, vs), l2) ->
  rd_seq bo delta dim dsize mms rl l (rs ++ [(af, ks, vs)]) ks l2.
Proof.
  intros bo delta dim dsize mms rl l rs rl1 l1 af ks vs l2 H. induction H; intros P.
  - eapply rs_cons; [exact P|constructor].
  - cbn [app]. eapply rs_cons; eauto.
Qed.

Lemma last_cons_dflt : forall {A} (l : list A) (a d : A), last (a :: l) d = last l a.
Proof.
  induction l as [| b l IH]; intros a d; [reflexivity|].
  change (last (a :: b :: l) d) with (last (b :: l) d). rewrite IH. symmetry. apply IH.
Qed.

Lemma with_first_snoc : forall rs prev k v,
  with_first prev (rs ++ [(k, v)]) = with_first prev rs ++ [(dim_first (last_keys prev rs) k, k, v)].
Proof.
  induction rs as [| [k0 v0] rs IH]; intros prev k v; [reflexivity|].
  cbn [app with_first]. rewrite IH. do 5 f_equal.
  unfold last_keys. cbn [List.map fst]. f_equal. symmetry. apply last_cons_dflt.
Qed.

Lemma last_keys_snoc : forall d rs k v, last_keys d (rs ++ [(k, v)]) = k.
Proof. intros. unfold last_keys. rewrite map_app. cbn [List.map fst]. apply last_last. Qed.

Lemma last_keys_length : forall mms dsize recs d, Forall (rec_ok mms dsize) recs -> length d = length mms ->
  length (last_keys d recs) = length mms.
Proof.
  intros mms dsize recs d F D. destruct recs as [| [k v] recs] using rev_ind; [exact D|].
  rewrite last_keys_snoc. apply Forall_app in F. destruct F as [_ F]. inversion F as [| ? ? (H & _) _]; subst.
  symmetry. eapply Forall2_length. exact H.
Qed.

Lemma p_svals_enc : forall bo vs r, Forall sval_ok vs ->
  prepeat (length vs) (p_sval bo) (List.concat (List.map (enc_sval bo) vs) ++ r) = Some (vs, r).
Proof.
  intros bo vs r F.
  rewrite (prepeat_enc (p_sval bo) (enc_sval bo) (fun x => x) sval_ok); [rewrite map_id; reflexivity| |assumption].
  intros. apply p_sval_enc. assumption.
Qed.

Lemma repeat_Forall : forall {A} (P : A -> Prop) a n, P a -> Forall P (repeat a n).
Proof. intros A P a n H. induction n; cbn; constructor; assumption. Qed.

(** The records of a block come back in order, each with the position of its first
    difference, whatever follows the block. *)
Lemma wr_recs_read : forall bo dim mms dsize recs bs last rl0, length rl0 = length mms ->
  (dim <= 20)%nat -> length mms = dim -> bounds_ok mms ->
  wr_recs bo dim mms recs bs last -> Forall (rec_ok mms dsize) recs ->
  last = last_keys (repeat INDEX_INITIAL dim) recs /\ bytes_ok bs /\
  forall rest, rd_seq bo (Z.of_nat dim) dim dsize mms rl0 (bs ++ rest)
                 (with_first (repeat INDEX_INITIAL dim) recs)
                 (last_keys rl0 recs) rest.
Proof.
  intros bo dim mms dsize recs bs last rl0 LR D L B W. induction W as [| recs bs last k vs b last' W IH K]; intros F.
  - split; [reflexivity|]. split; [constructor|]. intros rest. constructor.
  - apply Forall_app in F. destruct F as [F1 F2]. inversion F2 as [| ? ? (R1 & R2 & R3) _]; subst. cbn [fst snd] in *.
    destruct (IH F1) as (EL & BO & RD). clear IH.
    assert (LL : length last = length mms).
    { rewrite EL. eapply last_keys_length; [eassumption|apply repeat_length]. }
    assert (Lk : length k = length mms) by (symmetry; eapply Forall2_length; eassumption).
    destruct mms as [| mm mms].
    + (* no indices *)
      destruct k; [|discriminate]. destruct last; [|discriminate].
      cbn in K. injection K as <- <-.
      split; [rewrite last_keys_snoc; reflexivity|]. split.
      { apply bytes_app; [assumption|]. apply bytes_app; [apply (enc_byte_ok 1)|apply enc_svals_ok]. }
      intros rest. rewrite with_first_snoc, last_keys_snoc, <- app_assoc.
      eapply rd_seq_snoc; [apply RD|].
      unfold p_record. cbn [length] in *.
      destruct rl0; [|discriminate]. assert (EL0 : last_keys [] recs = []) by (symmetry; exact EL). rewrite EL0.
      rewrite <- app_assoc. change (enc_byte 1) with [1]. cbn.
      rewrite p_svals_enc by assumption. reflexivity.
    + remember (mm :: mms) as MM. assert (DM : (1 <= length MM <= 20)%nat) by (subst; cbn [length] in *; lia).
      destruct (write_read_done bo (length MM) MM last (last_keys rl0 recs) (zlen recs) k b last')
        as (E1 & E2 & E3 & E4 & i & E5 & E6); try assumption; try reflexivity.
      { eapply last_keys_length; [eassumption|congruence]. }
      { destruct recs as [| r recs] using rev_ind.
        - right. rewrite EL. apply repeat_Forall. reflexivity.
        - left. rewrite zlen_app. pose proof (zlen_nonneg recs). cbn. split; [|lia].
          rewrite EL. destruct r. rewrite !last_keys_snoc. reflexivity. }
      subst last'. split; [rewrite last_keys_snoc; reflexivity|]. split.
      { apply bytes_app; [assumption|]. apply bytes_app; [assumption|apply enc_svals_ok]. }
      intros rest. rewrite with_first_snoc, last_keys_snoc, <- app_assoc.
      eapply rd_seq_snoc; [apply RD|].
      unfold p_record. rewrite <- app_assoc, E6, p_svals_enc by assumption.
      rewrite <- EL. unfold dim_first. rewrite E5. reflexivity.
Qed.
