(** * FileFacts: the sections of a file are read back as they were written

    For either byte order.  [stored] is what the file keeps of a symbol. *)

From Coq Require Import String.
From Verif Require Import Base Prim Values Records StrHash Strings State FileImage ApiCore ApiFile.
Open Scope Z_scope.
Open Scope list_scope.

(** The members of a symbol that are not stored are reset by reading. *)
Definition stored (s : sym) : sym := set_sy_scalar false (set_sy_bits None s).
Definition stored0 (s : sym) : sym := set_sy_dstrs None (stored s).

(** What the format can represent. *)
Definition text_ok (s : str) : Prop := str_ok s /\ zlen s <= 255.
Definition dims_ok (s : sym) (o : option (list Z)) : Prop :=
  match o with None => True | Some l => length l = sy_dim s /\ Forall int_ok l end.
Definition sym_ok (s : sym) : Prop :=
  (sy_dim s <= 20)%nat /\ i64_ok (sy_pos s) /\ byte_ok (sy_type s) /\ int_ok (sy_uinfo s) /\
  int_ok (sy_count s) /\ int_ok (sy_errs s) /\ text_ok (sy_expl s) /\ dims_ok s (sy_doms s) /\
  dims_ok s (sy_dstrs s) /\ Forall text_ok (sy_comments s) /\ zlen (sy_comments s) <= INT_MAX.

Lemma pbind_Some : forall {A B} (p : parser A) (f : A -> parser B) l a r,
  p l = Some (a, r) -> pbind p f l = f a r.
Proof. intros A B p f l a r H. unfold pbind. rewrite H. reflexivity. Qed.

Lemma prepeat_enc : forall {A} (p : parser A) (e : A -> list Z) (g : A -> A) (P : A -> Prop) xs r,
  (forall x r', P x -> p (e x ++ r') = Some (g x, r')) -> Forall P xs ->
  prepeat (length xs) p (List.concat (List.map e xs) ++ r) = Some (List.map g xs, r).
Proof.
  intros A p e g P xs r H F. induction F as [| x xs Px F IH]; [reflexivity|].
  cbn [length prepeat List.map List.concat]. rewrite <- app_assoc.
  erewrite pbind_Some by (apply H; assumption). erewrite pbind_Some by exact IH. reflexivity.
Qed.

Lemma to_nat_zlen : forall {A} (l : list A), Z.to_nat (zlen l) = length l.
Proof. intros. unfold zlen. apply Nat2Z.id. Qed.

Lemma p_ints_enc : forall bo l r, Forall int_ok l -> p_ints bo (length l) (enc_ints bo l ++ r) = Some (l, r).
Proof.
  intros bo l r F. unfold p_ints, enc_ints.
  rewrite (prepeat_enc (p_int bo) (enc_int bo) (fun x => x) int_ok); [rewrite map_id; reflexivity| |assumption].
  intros. apply p_int_enc. assumption.
Qed.

Lemma p_strs_enc : forall l r, Forall str_ok l -> p_strs (length l) (enc_strs l ++ r) = Some (l, r).
Proof.
  intros l r F. unfold p_strs, enc_strs.
  rewrite (prepeat_enc p_sstr enc_str (fun x => x) str_ok); [rewrite map_id; reflexivity| |assumption].
  intros. apply p_sstr_enc. assumption.
Qed.

Lemma p_counted_enc : forall {A} bo (p : parser A) (e : A -> list Z) (g : A -> A) (P : A -> Prop) xs r,
  (forall x r', P x -> p (e x ++ r') = Some (g x, r')) -> Forall P xs -> zlen xs <= INT_MAX ->
  p_counted bo p (enc_int bo (zlen xs) ++ List.concat (List.map e xs) ++ r) = Some (List.map g xs, r).
Proof.
  intros A bo p e g P xs r H F L. unfold p_counted.
  erewrite pbind_Some.
  2:{ apply p_int_enc. pose proof (zlen_nonneg xs). unfold int_ok, INT_MIN. lia. }
  rewrite to_nat_zlen. apply (prepeat_enc p e g P); assumption.
Qed.

Ltac pstep H := erewrite pbind_Some by (rewrite <- ?app_assoc; apply H; assumption).

Lemma b2z_negb : forall b, negb (b2z b =? 0) = b.
Proof. intros [|]; reflexivity. Qed.

Lemma p_sym_enc : forall bo e r, text_ok (fst e) -> sym_ok (snd e) ->
  p_sym bo GDX_VERSION (enc_sym bo e ++ r) = Some ((fst e, stored0 (snd e)), r).
Proof.
  intros bo [name s] r [N1 N2] (D & P & T & U & C & E & [X1 X2] & DO & DS & CO & CL). cbn [fst snd] in *.
  unfold p_sym, enc_sym. cbn [fst snd]. rewrite <- !app_assoc.
  erewrite pbind_Some by (apply p_sstr_enc; assumption).
  change (GDX_VERSION <=? 5) with false. cbv iota.
  erewrite pbind_Some by (apply p_i64_enc; assumption).
  erewrite pbind_Some by (apply p_int_enc; unfold int_ok, INT_MIN, INT_MAX; lia).
  erewrite pbind_Some by (apply p_byte_enc; assumption).
  erewrite pbind_Some by (apply p_int_enc; assumption).
  erewrite pbind_Some by (apply p_int_enc; assumption).
  erewrite pbind_Some by (apply p_int_enc; assumption).
  erewrite pbind_Some by (apply p_byte_enc; unfold byte_ok; destruct (sy_settext s); cbn; lia).
  erewrite pbind_Some by (apply p_sstr_enc; assumption).
  change (5 <? GDX_VERSION) with true. change (7 <=? GDX_VERSION) with true. cbv iota.
  erewrite pbind_Some by (apply p_byte_enc; unfold byte_ok; destruct (sy_comp s); cbn; lia).
  assert (DD : (0 <=? Z.of_nat (sy_dim s)) && (Z.of_nat (sy_dim s) <=? 20) = true) by lia.
  assert (CN : forall r', (ncom <- p_int bo ;; coms <- p_strs (Z.to_nat ncom) ;; pret coms)%parse
              (enc_int bo (zlen (sy_comments s)) ++ enc_strs (sy_comments s) ++ r') = Some (sy_comments s, r')).
  { intros r'. erewrite pbind_Some by (apply p_int_enc; pose proof (zlen_nonneg (sy_comments s)); unfold int_ok, INT_MIN; lia).
    rewrite to_nat_zlen. erewrite pbind_Some.
    2:{ apply p_strs_enc. eapply Forall_impl; [|exact CO]. intros a [H _]. exact H. }
    reflexivity. }
  assert (CN' : forall (K : list str -> parser (str * sym)) r',
     (ncom <- p_int bo ;; coms <- p_strs (Z.to_nat ncom) ;; K coms)%parse
     (enc_int bo (zlen (sy_comments s)) ++ enc_strs (sy_comments s) ++ r') = K (sy_comments s) r').
  { intros K r'. specialize (CN r'). unfold pbind in CN |- *.
    destruct (p_int bo _) as [[n l]|]; [|discriminate]. destruct (p_strs (Z.to_nat n) l) as [[c l']|]; [|discriminate].
    unfold pret in CN. injection CN as -> ->. reflexivity. }
  unfold dims_ok in DO. destruct (sy_doms s) as [l|] eqn:DE.
  - destruct DO as [DO1 DO2]. rewrite <- !app_assoc.
    erewrite pbind_Some by (apply p_byte_enc; unfold byte_ok; lia).
    rewrite DD. change (1 =? 0) with false. cbv iota.
    erewrite pbind_Some.
    2:{ erewrite pbind_Some; [reflexivity|]. rewrite Nat2Z.id, <- DO1. apply p_ints_enc. assumption. }
    rewrite CN'. unfold pret. rewrite Nat2Z.id, !b2z_negb. destruct s; cbn in DE. subst. reflexivity.
  - erewrite pbind_Some by (apply p_byte_enc; unfold byte_ok; lia).
    rewrite DD. change (0 =? 0) with true. cbv iota.
    erewrite pbind_Some by reflexivity.
    rewrite CN'. unfold pret. rewrite Nat2Z.id, !b2z_negb. destruct s; cbn in DE. subst. reflexivity.
Qed.

(** An acronym as it comes back. *)
Definition stored_acro (a : acro) : acro := mkAcro (acro_saved_name a) (ac_text a) (ac_map a) (-1) false.
Definition acro_ok (a : acro) : Prop := text_ok (acro_saved_name a) /\ text_ok (ac_text a) /\ int_ok (ac_map a).

Lemma p_acro_enc : forall bo a r, acro_ok a -> p_acro bo (enc_acro bo a ++ r) = Some (stored_acro a, r).
Proof.
  intros bo a r ([N _] & [T _] & M). unfold p_acro, enc_acro. rewrite <- !app_assoc.
  erewrite pbind_Some by (apply p_sstr_enc; assumption).
  erewrite pbind_Some by (apply p_sstr_enc; assumption).
  erewrite pbind_Some by (apply p_int_enc; assumption). reflexivity.
Qed.

Lemma enc_ints_length : forall bo l, length (enc_ints bo l) = (4 * length l)%nat.
Proof.
  intros bo. induction l as [| a l IH]; [reflexivity|]. unfold enc_ints in *. cbn [List.map List.concat length].
  rewrite app_length, enc_int_length, IH. lia.
Qed.

(** The domain entries of the symbols. *)
Definition entries_ok (dims : list nat) (es : list (Z * list Z)) : Prop :=
  Forall (fun e => 1 <= fst e <= INT_MAX /\ znth dims (fst e - 1) = Some (length (snd e)) /\ Forall int_ok (snd e)) es.

Lemma p_entries_enc : forall bo dims es r k, entries_ok dims es ->
  (length (List.concat (List.map (enc_entry bo) es)) < k)%nat ->
  p_entries bo dims k (List.concat (List.map (enc_entry bo) es) ++ enc_int bo (-1) ++ r) = Some (es, r).
Proof.
  intros bo dims es r k H. revert k. induction H as [| [n ds] es (N & D & I) H IH]; intros k K.
  - destruct k as [| k]; [cbn in K; lia|]. cbn [List.map List.concat app p_entries].
    erewrite pbind_Some by (apply p_int_enc; unfold int_ok, INT_MIN, INT_MAX; lia). reflexivity.
  - destruct k as [| k]; [cbn in K; lia|]. cbn [List.map List.concat p_entries]. cbn [fst snd] in *.
    unfold enc_entry at 1. cbn [fst snd]. rewrite <- !app_assoc.
    erewrite pbind_Some by (apply p_int_enc; unfold int_ok, INT_MIN; lia).
    destruct (Z.leb_spec n 0); [lia|]. rewrite D.
    erewrite pbind_Some by (apply p_ints_enc; assumption).
    cbn [List.map List.concat] in K. unfold enc_entry at 1 in K. cbn [fst snd] in K.
    rewrite !app_length, enc_int_length in K.
    erewrite pbind_Some by (apply IH; lia). reflexivity.
Qed.

Lemma dom_entries_ok : forall l n dims, 1 <= n -> n + zlen l <= INT_MAX + 1 ->
  Forall (fun e => dims_ok (snd e) (sy_dstrs (snd e))) l ->
  (forall i e, znth l i = Some e -> znth dims (n - 1 + i) = Some (sy_dim (snd e))) ->
  entries_ok dims (dom_entries n l).
Proof.
  induction l as [| e l IH]; intros n dims N L F D; cbn [dom_entries]; [constructor|].
  inversion F; subst. rewrite zlen_cons in L. pose proof (zlen_nonneg l).
  assert (IH' : entries_ok dims (dom_entries (n + 1) l)).
  { apply IH; [lia|lia|assumption|]. intros i e' E.
    replace (n + 1 - 1 + i) with (n - 1 + (i + 1)) by lia. apply D.
    unfold znth in *. destruct (Z.ltb_spec i 0); [discriminate|]. destruct (Z.ltb_spec (i + 1) 0); [lia|].
    replace (Z.to_nat (i + 1)) with (S (Z.to_nat i)) by lia. exact E. }
  destruct (sy_dstrs (snd e)) as [ds|] eqn:E; [|exact IH'].
  constructor; [|exact IH']. cbn [fst snd]. unfold dims_ok in H1. destruct H1 as [H1 H1'].
  split; [lia|]. split; [|exact H1']. replace (n - 1) with (n - 1 + 0) by lia.
  rewrite (D 0 e eq_refl). congruence.
Qed.

Lemma zset_cons : forall {A} i (a x : A) l, 0 <= i -> zset (i + 1) a (x :: l) = x :: zset i a l.
Proof.
  intros A i a x l H. unfold zset. destruct (Z.ltb_spec (i + 1) 0); [lia|]. destruct (Z.ltb_spec i 0); [lia|].
  replace (Z.to_nat (i + 1)) with (S (Z.to_nat i)) by lia. reflexivity.
Qed.

Lemma zset_app : forall {A} (p : list A) a x r, zset (zlen p) a (p ++ x :: r) = p ++ a :: r.
Proof.
  intros A. induction p as [| y p IH]; intros a x r; [reflexivity|].
  cbn [app]. rewrite zlen_cons, Z.add_comm, zset_cons by apply zlen_nonneg. rewrite IH. reflexivity.
Qed.

Lemma znth_middle : forall {A} (p : list A) x r, znth (p ++ x :: r) (zlen p) = Some x.
Proof. intros. rewrite znth_app_r by lia. rewrite Z.sub_diag. reflexivity. Qed.

Lemma set_entries_stored : forall l p,
  set_entries (dom_entries (zlen p + 1) l) (p ++ List.map (fun e => (fst e, stored0 (snd e))) l)
  = p ++ List.map (fun e => (fst e, stored (snd e))) l.
Proof.
  induction l as [| e l IH]; intros p; [reflexivity|]. cbn [dom_entries List.map].
  specialize (IH (p ++ [(fst e, stored (snd e))])).
  rewrite zlen_app, <- !app_assoc in IH. cbn [app] in IH. change (zlen [(fst e, stored (snd e))]) with 1 in IH.
  destruct (sy_dstrs (snd e)) as [ds|] eqn:E.
  - cbn [set_entries]. replace (zlen p + 1 - 1) with (zlen p) by lia. rewrite znth_middle, zset_app. cbn [fst snd].
    replace (set_sy_dstrs (Some ds) (stored0 (snd e))) with (stored (snd e)); [exact IH|].
    unfold stored0, stored. destruct (snd e); cbn in *. rewrite E. reflexivity.
  - replace (stored0 (snd e)) with (stored (snd e)) at 1; [exact IH|].
    unfold stored0, stored. destruct (snd e); cbn in *. rewrite E. reflexivity.
Qed.

(** ** Header and index *)

Lemma p_major_enc : forall bo nwp m r,
  i64_ok (mj_symb m) -> i64_ok (mj_uel m) -> i64_ok (mj_text m) -> i64_ok (mj_acro m) ->
  i64_ok (mj_nwp m) -> i64_ok (mj_doms m) ->
  p_major bo GDX_VERSION nwp (enc_i64 bo (mj_symb m) ++ enc_i64 bo (mj_uel m) ++ enc_i64 bo (mj_text m)
    ++ enc_i64 bo (mj_acro m) ++ enc_i64 bo (mj_nwp m) ++ enc_i64 bo (mj_doms m) ++ r) = Some (m, r).
Proof.
  intros bo nwp m r H1 H2 H3 H4 H5 H6. unfold p_major.
  change (GDX_VERSION <=? 5) with false. change (7 <=? GDX_VERSION) with true. cbv iota.
  erewrite pbind_Some by (apply p_i64_enc; assumption).
  erewrite pbind_Some by (apply p_i64_enc; assumption).
  erewrite pbind_Some by (apply p_i64_enc; assumption).
  erewrite pbind_Some by (apply p_i64_enc; assumption).
  erewrite pbind_Some by (apply p_i64_enc; assumption).
  erewrite pbind_Some by (apply p_i64_enc; assumption).
  destruct m; reflexivity.
Qed.

Lemma p_order_enc : forall bo r, p_order (preamble bo ++ r) = Some (Some bo, r).
Proof. intros [[|] [|] [|]] r; reflexivity. Qed.

Lemma p_mms_enc : forall bo mms r, Forall (fun mm => int_ok (fst mm) /\ int_ok (snd mm)) mms ->
  prepeat (length mms) (p_mm bo) (List.concat (List.map (enc_mm bo) mms) ++ r) = Some (mms, r).
Proof.
  intros bo mms r F.
  rewrite (prepeat_enc (p_mm bo) (enc_mm bo) (fun x => x) (fun mm => int_ok (fst mm) /\ int_ok (snd mm)));
    [rewrite map_id; reflexivity| |assumption].
  intros [a b] r' [H1 H2]. cbn [fst snd] in *. unfold p_mm, enc_mm. cbn [fst snd]. rewrite <- app_assoc.
  erewrite pbind_Some by (apply p_int_enc; assumption).
  erewrite pbind_Some by (apply p_int_enc; assumption). reflexivity.
Qed.

(** ** All of it is bytes *)

Lemma bytes_app : forall a b, bytes_ok a -> bytes_ok b -> bytes_ok (a ++ b).
Proof. intros. apply Forall_app. auto. Qed.
Lemma bytes_concat : forall {A} (e : A -> list Z) (P : A -> Prop) l, (forall x, P x -> bytes_ok (e x)) ->
  Forall P l -> bytes_ok (List.concat (List.map e l)).
Proof. intros A e P l H F. induction F; cbn; [constructor|]. apply bytes_app; auto. Qed.
Lemma enc_text_ok : forall s, text_ok s -> bytes_ok (enc_str s).
Proof. intros s [A B]. apply enc_str_ok; assumption. Qed.
Lemma enc_ints_ok : forall bo l, bytes_ok (enc_ints bo l).
Proof.
  intros. apply (bytes_concat _ (fun _ => True)); [intros; apply enc_int_ok|]. induction l; constructor; auto.
Qed.
Lemma enc_strs_ok : forall l, Forall text_ok l -> bytes_ok (enc_strs l).
Proof. intros l F. apply (bytes_concat _ text_ok); [apply enc_text_ok|exact F]. Qed.

Lemma enc_sym_ok : forall bo e, text_ok (fst e) -> sym_ok (snd e) -> bytes_ok (enc_sym bo e).
Proof.
  intros bo e N (_ & _ & _ & _ & _ & _ & X & _ & _ & CO & _). unfold enc_sym.
  repeat apply bytes_app; auto using enc_int_ok, enc_i64_ok, enc_byte_ok, enc_text_ok, enc_strs_ok.
  destruct (sy_doms (snd e)); [apply bytes_app|]; auto using enc_ints_ok, enc_byte_ok.
Qed.

Lemma mark_ok : forall m, In m [MARK_UEL; MARK_SYMB; MARK_DATA; MARK_SETT; MARK_ACRO; MARK_DOMS] ->
  bytes_ok (enc_str m).
Proof.
  intros m H. repeat (destruct H as [<-|H]; [repeat (apply Forall_cons; [unfold byte_ok; vm_compute; split; [discriminate|reflexivity]|]); apply Forall_nil|]).
  destruct H.
Qed.

Lemma enc_symbs_ok : forall bo l, Forall (fun e => text_ok (fst e) /\ sym_ok (snd e)) l -> bytes_ok (enc_symbs bo l).
Proof.
  intros bo l F. unfold enc_symbs. repeat apply bytes_app; try apply enc_int_ok; try (apply mark_ok; cbn; tauto).
  apply (bytes_concat _ _ _ (fun x H => enc_sym_ok bo x (proj1 H) (proj2 H)) F).
Qed.
Lemma enc_texts_ok : forall bo l, Forall text_ok l -> bytes_ok (enc_texts bo l).
Proof.
  intros bo l F. unfold enc_texts. repeat apply bytes_app; try apply enc_int_ok; try (apply mark_ok; cbn; tauto).
  apply enc_strs_ok. assumption.
Qed.
Lemma enc_uels_ok : forall bo l, Forall text_ok l -> bytes_ok (enc_uels bo l).
Proof.
  intros bo l F. unfold enc_uels. repeat apply bytes_app; try apply enc_int_ok; try (apply mark_ok; cbn; tauto).
  apply enc_strs_ok. assumption.
Qed.
Lemma enc_acros_ok : forall bo l, Forall acro_ok l -> bytes_ok (enc_acros bo l).
Proof.
  intros bo l F. unfold enc_acros. repeat apply bytes_app; try apply enc_int_ok; try (apply mark_ok; cbn; tauto).
  apply (bytes_concat _ acro_ok); [|assumption]. intros a (N & T & _). unfold enc_acro.
  repeat apply bytes_app; auto using enc_int_ok, enc_text_ok.
Qed.
Lemma enc_doms_ok : forall bo ds es, Forall text_ok ds -> bytes_ok (enc_doms bo ds es).
Proof.
  intros bo ds es F. unfold enc_doms. repeat apply bytes_app; try apply enc_int_ok; try (apply mark_ok; cbn; tauto).
  - apply enc_strs_ok. assumption.
  - apply (bytes_concat _ (fun _ => True)); [|induction es; constructor; auto].
    intros [n l] _. unfold enc_entry. apply bytes_app; auto using enc_int_ok, enc_ints_ok.
Qed.
Lemma enc_blockhead_ok : forall bo dim n mms, bytes_ok (enc_blockhead bo dim n mms).
Proof.
  intros. unfold enc_blockhead. repeat apply bytes_app; try apply enc_int_ok; try apply enc_byte_ok; try (apply mark_ok; cbn; tauto).
  apply (bytes_concat _ (fun _ => True)); [|induction mms; constructor; auto].
  intros mm _. unfold enc_mm. apply bytes_app; apply enc_int_ok.
Qed.
Lemma enc_svals_ok : forall bo vs, bytes_ok (List.concat (List.map (enc_sval bo) vs)).
Proof.
  intros. apply (bytes_concat _ (fun _ => True)); [|induction vs; constructor; auto].
  intros [m|d] _; cbn [enc_sval]; [apply enc_byte_ok|apply bytes_app; auto using enc_byte_ok, enc_dbl_ok].
Qed.
