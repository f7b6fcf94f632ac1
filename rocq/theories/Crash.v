(** * Crash: what a file contains when the writing process stops

    The physical writes of a stream reach the disk one after the other; the last one may
    have been cut short.  Assumption: the operating system keeps their order. *)

From Verif Require Import Base AStream BufStream.

(** What is on the disk when the process stops during the writes [ws], in this order, to a
    file that contained [f]. *)
Inductive stops (f : list Z) : list (Z * list Z) -> list Z -> Prop :=
| stops_before : forall ws, stops f ws f
| stops_torn : forall p bs ws k, stops f ((p, bs) :: ws) (pwrite f p (firstn k bs))
| stops_later : forall p bs ws f', stops (pwrite f p bs) ws f' -> stops f ((p, bs) :: ws) f'.

(** All writes have been made. *)
Definition replay (f : list Z) (ws : list (Z * list Z)) : list Z := fold_left (fun f w => pwrite f (fst w) (snd w)) ws f.

(** The physical writes that a sequence of stream operations gives on a file that contained
    [f], when the stream is closed at the end. *)
Definition physical (z : zlib) (ops : list sop) (f : list Z) : list (Z * list Z) :=
  rev (b_log (b_flush z (snd (bruns z ops (b_open f))))).

Lemma stops_all : forall ws f, stops f ws (replay f ws).
Proof. induction ws as [|[p bs] ws IH]; intros f; [apply stops_before|]. apply stops_later. apply IH. Qed.
Lemma stops_app_l : forall ws ws' f F, stops f ws F -> stops f (ws ++ ws') F.
Proof. intros ws ws' f F H. induction H; cbn [app]; constructor. assumption. Qed.
Lemma stops_snoc : forall ws f p bs F, stops f (ws ++ [(p, bs)]) F -> stops f ws F \/ exists k, F = pwrite (replay f ws) p (firstn k bs).
Proof.
  induction ws as [|[q cs] ws IH]; intros f p bs F H; cbn [app] in H.
  - inversion H; subst.
    + left. constructor.
    + right. exists k. reflexivity.
    + right. exists (length bs). rewrite firstn_all. cbn. match goal with X : stops _ [] _ |- _ => inversion X end. reflexivity.
  - inversion H; subst.
    + left. constructor.
    + left. apply stops_torn.
    + match goal with X : stops (pwrite _ _ _) _ _ |- _ => rename X into HX end. destruct (IH _ _ _ _ HX) as [I|[k I]]; [left; apply stops_later; exact I|right; exists k; exact I].
Qed.
Lemma replay_app : forall a b f, replay f (a ++ b) = replay (replay f a) b.
Proof. intros. unfold replay. apply fold_left_app. Qed.

(** ** A file that begins with [t] *)

Section T.
Context (z : zlib) (t : list Z).

(** [f] begins with [t], as far as it goes. *)
Definition fits (f : list Z) : Prop := exists a b, f ++ a = t ++ b.
Definition has (f : list Z) : Prop := exists b, f = t ++ b.

Lemma has_fits : forall f, has f -> fits f.
Proof. intros f [b ->]. exists [], b. apply app_nil_r. Qed.
Lemma fits_prefix : forall f k g, fits (f ++ g) -> fits (f ++ firstn k g).
Proof. intros f k g (a & b & E). exists (skipn k g ++ a), b. rewrite <- app_assoc, (app_assoc (firstn k g)), firstn_skipn, app_assoc. exact E. Qed.
Lemma has_app : forall f g, has f -> has (f ++ g).
Proof. intros f g [b ->]. exists (b ++ g). symmetry. apply app_assoc. Qed.
Lemma fits_has : forall f, fits f -> zlen t <= zlen f -> has f.
Proof.
  intros f (a & b & E) L. exists (skipn (length t) f). assert (X : firstn (length t) f = t).
  { apply (f_equal (firstn (length t))) in E. rewrite !firstn_app in E. rewrite firstn_all, Nat.sub_diag in E. cbn [firstn] in E. rewrite app_nil_r in E.
    replace (length t - length f)%nat with O in E by (unfold zlen in L; lia). cbn [firstn] in E. rewrite app_nil_r in E. exact E. }
  rewrite <- X at 1. symmetry. apply firstn_skipn.
Qed.
Lemma has_pwrite : forall f p bs, has f -> zlen t <= p -> has (pwrite f p bs).
Proof.
  intros f p bs [b ->] P. unfold pwrite. destruct bs as [|x bs]; [exists b; reflexivity|].
  match goal with |- has (firstn ?n ((t ++ b) ++ ?r) ++ ?q) => exists (firstn (n - length t) (b ++ r) ++ q) end.
  rewrite (app_assoc t). f_equal. rewrite <- app_assoc. rewrite firstn_app. f_equal. apply firstn_all2. unfold zlen in P. lia.
Qed.

(** The stream has written [t], or has it waiting at the end of the file; all that was ever
    on the disk begins with [t] as far as it goes. *)
Record sound (c : bstream) : Prop := mkSound {
  so_buf : b_buf c = [];
  so_log : replay [] (rev (b_log c)) = b_file c;
  so_seen : forall f, stops [] (rev (b_log c)) f -> fits f;
  so_pos : (has (b_file c) /\ zlen t <= b_phys c) \/
           (b_comp c = false /\ b_phys c = zlen (b_file c) /\ has (b_file c ++ b_pend c))
}.
(** Before [t] is complete: [u] has been written, uncompressed. *)
Record begun (u : list Z) (c : bstream) : Prop := mkBegun {
  be_buf : b_buf c = [];
  be_log : replay [] (rev (b_log c)) = b_file c;
  be_seen : forall f, stops [] (rev (b_log c)) f -> fits f;
  be_pos : b_comp c = false /\ b_phys c = zlen (b_file c) /\ b_file c ++ b_pend c = u
}.

Lemma log_write : forall c bs, replay [] (rev (b_log c)) = b_file c -> (forall f, stops [] (rev (b_log c)) f -> fits f) ->
  (forall k, fits (pwrite (b_file c) (b_phys c) (firstn k bs))) ->
  replay [] (rev (b_log (x_write bs c))) = b_file (x_write bs c) /\ forall f, stops [] (rev (b_log (x_write bs c))) f -> fits f.
Proof.
  intros c bs L S K. cbn [x_write b_log b_file rev]. split.
  - rewrite replay_app, L. reflexivity.
  - intros f H. apply stops_snoc in H. destruct H as [H|[k ->]]; [apply S; exact H|]. rewrite L. apply K.
Qed.

Lemma sound_x_write : forall c bs, sound c -> has (b_file c) -> zlen t <= b_phys c -> sound (x_write bs c).
Proof.
  intros c bs [B L S _] H P. destruct (log_write c bs L S) as [L' S']; [intros k; apply has_fits, has_pwrite; assumption|].
  constructor; try assumption. left. cbn [x_write b_file b_phys]. split; [apply has_pwrite; assumption|]. pose proof (zlen_nonneg bs). lia.
Qed.
Lemma sound_clear : forall c, sound c -> has (b_file c) -> zlen t <= b_phys c -> sound (b_clear c).
Proof. intros c [B L S _] H P. constructor; try assumption; [reflexivity|]. left. auto. Qed.

Lemma sound_flush : forall c, sound c -> sound (b_flush z c) /\ b_pend (b_flush z c) = [] /\ has (b_file (b_flush z c)) /\ zlen t <= b_phys (b_flush z c) /\ b_comp (b_flush z c) = b_comp c.
Proof.
  intros c SO. destruct (so_pos _ SO) as [[H P]|(C & P & H)].
  - assert (X : forall bs, sound (x_write bs c) /\ has (b_file (x_write bs c)) /\ zlen t <= b_phys (x_write bs c)).
    { intros bs. pose proof (sound_x_write c bs SO H P) as Q. split; [exact Q|]. cbn [x_write b_file b_phys]. split; [apply has_pwrite; assumption|]. pose proof (zlen_nonneg bs). lia. }
    unfold b_flush. destruct (b_pend c) as [|x pd] eqn:E; [split; [exact SO|]; split; [exact E|]; split; [exact H|]; split; [exact P|reflexivity]|].
    destruct (b_comp c) eqn:CC; cbn [negb].
    + destruct (_ <? _).
      * match goal with |- context [x_write ?b c] => destruct (X b) as (X1 & X2 & X3) end. split; [apply sound_clear; assumption|]. repeat split; assumption.
      * match goal with |- context [x_write ?b c] => destruct (X b) as (X1 & X2 & X3) end.
        match goal with |- context [x_write ?b (x_write ?a c)] => pose proof (sound_x_write (x_write a c) b X1 X2 X3) as Y; pose proof (has_pwrite _ (b_phys (x_write a c)) b X2 X3) as Y2 end.
        match type of Y with sound ?s => assert (Y3 : zlen t <= b_phys s) by (cbn [x_write b_phys] in *; pose proof (zlen_nonneg (x :: pd)); lia) end.
        split; [apply sound_clear; assumption|]. repeat split; assumption.
    + destruct (X (x :: pd)) as (X1 & X2 & X3). split; [apply sound_clear; assumption|]. repeat split; assumption.
  - assert (E : pwrite (b_file c) (b_phys c) (b_pend c) = b_file c ++ b_pend c) by (rewrite P; apply pwrite_end).
    assert (LT : zlen t <= zlen (b_file c ++ b_pend c)) by (destruct H as [b ->]; rewrite zlen_app; pose proof (zlen_nonneg b); lia).
    unfold b_flush. destruct (b_pend c) as [|x pd] eqn:EP.
    { rewrite app_nil_r in *. split; [exact SO|]. split; [exact EP|]. split; [exact H|]. split; [rewrite P; exact LT|reflexivity]. }
    rewrite C. cbn [negb]. destruct SO as [B L S _].
    destruct (log_write c (x :: pd) L S) as [L' S'].
    { intros k. rewrite P, pwrite_end. apply fits_prefix. apply has_fits. exact H. }
    assert (HF : has (b_file (x_write (x :: pd) c))) by (cbn [x_write b_file]; rewrite E; exact H).
    assert (PF : zlen t <= b_phys (x_write (x :: pd) c)) by (cbn [x_write b_phys]; rewrite P, <- zlen_app; exact LT).
    split; [apply sound_clear; try assumption; constructor; try assumption; left; auto|]. repeat split; assumption.
Qed.

Lemma begun_flush : forall u c, begun u c -> fits u -> begun u (b_flush z c).
Proof.
  intros u c [B L S (C & P & U)] F. unfold b_flush. destruct (b_pend c) as [|x pd] eqn:EP; [constructor; auto; rewrite EP; auto|].
  rewrite C. cbn [negb]. destruct (log_write c (x :: pd) L S) as [L' S'].
  { intros k. rewrite P, pwrite_end. apply fits_prefix. rewrite U. exact F. }
  constructor; try assumption; [reflexivity|]. cbn [b_clear x_write b_comp b_phys b_file b_pend].
  rewrite P, pwrite_end, zlen_app, app_nil_r. auto.
Qed.

Lemma begun_sound : forall u c, begun u c -> has u -> sound c.
Proof. intros u c [B L S (C & P & U)] H. constructor; try assumption. right. rewrite U. auto. Qed.

(** *** Operations *)

Definition safe_op (o : sop) : Prop := match o with OSetPos p => zlen t <= p | ORead _ => False | _ => True end.

Lemma append_sound : forall bs c, sound c -> sound (b_append bs c).
Proof.
  intros bs c [B L S [H|(C & P & H)]]; constructor; try assumption; [left; assumption|right]. cbn [b_append b_comp b_phys b_file b_pend].
  split; [exact C|]. split; [exact P|]. rewrite app_assoc. apply has_app. exact H.
Qed.
Lemma write_loop_sound : forall fuel bs c, sound c -> sound (b_write_loop z fuel bs c).
Proof.
  induction fuel as [|k IH]; intros bs c SO; cbn [b_write_loop]; [exact SO|]. destruct bs as [|b bs]; [exact SO|]. cbv zeta. apply IH.
  pose proof (append_sound (firstn (Nat.min (length (b :: bs)) (BUFSZ - length (b_pend c))) (b :: bs)) c SO) as A.
  destruct (BUFSZ <=? _)%nat; [apply sound_flush; exact A|exact A].
Qed.
Lemma append_begun : forall u bs c, begun u c -> begun (u ++ bs) (b_append bs c).
Proof.
  intros u bs c [B L S (C & P & U)]. constructor; try assumption. cbn [b_append b_comp b_phys b_file b_pend].
  split; [exact C|]. split; [exact P|]. rewrite app_assoc, U. reflexivity.
Qed.
Lemma write_loop_begun : forall fuel bs u c, (length bs <= fuel)%nat -> (length (b_pend c) < BUFSZ)%nat -> begun u c -> fits (u ++ bs) -> begun (u ++ bs) (b_write_loop z fuel bs c).
Proof.
  induction fuel as [|k IH]; intros bs u c LF LP SO F.
  { destruct bs; [rewrite app_nil_r; exact SO|cbn in LF; lia]. }
  cbn [b_write_loop]. destruct bs as [|b bs]; [rewrite app_nil_r; exact SO|]. cbv zeta.
  set (nb := Nat.min (length (b :: bs)) (BUFSZ - length (b_pend c))). set (l := b :: bs) in *.
  pose proof (append_begun u (firstn nb l) c SO) as A.
  assert (NB : (0 < nb)%nat) by (unfold nb, l; cbn [length]; lia).
  replace (u ++ l) with ((u ++ firstn nb l) ++ skipn nb l) by (rewrite <- app_assoc, firstn_skipn; reflexivity).
  apply IH.
  - rewrite skipn_length. unfold l in *. cbn [length] in *. lia.
  - destruct (Nat.leb_spec BUFSZ (length (b_pend (b_append (firstn nb l) c)))) as [Q|Q]; [|exact Q].
    unfold b_flush. destruct (b_pend (b_append (firstn nb l) c)); cbn [length b_clear b_pend] in *; [pose proof BUFSZ_pos; lia|apply BUFSZ_pos].
  - destruct (BUFSZ <=? _)%nat; [apply begun_flush; [exact A|]|exact A]. apply (fits_prefix u nb l) in F. exact F.
  - rewrite <- app_assoc, firstn_skipn. exact F.
Qed.
Lemma fits_left : forall u bs, fits (u ++ bs) -> fits u.
Proof. intros u bs F. pose proof (fits_prefix u 0 bs F) as X. cbn [firstn] in X. rewrite app_nil_r in X. exact X. Qed.
Lemma write_begun : forall bs u c, begun u c -> (length (b_pend c) < BUFSZ)%nat -> fits (u ++ bs) -> begun (u ++ bs) (b_write z bs c).
Proof.
  intros bs u c SO LP F. unfold b_write. cbv zeta. rewrite (be_buf _ _ SO). destruct (_ <=? _)%nat.
  - apply append_begun. exact SO.
  - apply write_loop_begun; try assumption. lia.
Qed.

Lemma write_sound : forall bs c, sound c -> sound (b_write z bs c).
Proof.
  intros bs c SO. unfold b_write. cbv zeta. rewrite (so_buf _ SO). destruct (_ <=? _)%nat; [apply append_sound|apply write_loop_sound]; exact SO.
Qed.
Lemma seek_sound : forall p c, sound c -> has (b_file c) -> zlen t <= p -> sound (b_seek p c).
Proof.
  intros p c [B L S _] H P. unfold b_seek. rewrite B. change (zlen (@nil Z) =? 0) with true. cbn [negb andb]. constructor; try assumption; [reflexivity|]. left. auto.
Qed.
Lemma getpos_sound : forall c, sound c -> sound (snd (b_getpos z c)).
Proof. intros c SO. unfold b_getpos. destruct (b_pend c); [exact SO|]. cbn [snd]. destruct (b_comp c); [apply sound_flush|]; exact SO. Qed.
Lemma setcomp_sound : forall v c, sound c -> sound (b_setcomp z v c).
Proof.
  intros v c SO. unfold b_setcomp. cbv zeta. destruct (sound_flush c SO) as (SF & PF & HF & LF & CF). destruct (b_comp c || v) eqn:CV.
  - destruct (Bool.eqb _ v); [exact SF|]. destruct SF as [B L S _]. constructor; try assumption; [reflexivity|]. left. split; assumption.
  - destruct (Bool.eqb_spec (b_comp c) v) as [E|E]; [exact SO|]. exfalso. apply E. destruct (b_comp c), v; try discriminate; reflexivity.
Qed.
Lemma setpos_sound : forall p c, sound c -> zlen t <= p -> sound (b_setpos z p c).
Proof.
  intros p c SO P. unfold b_setpos. destruct (sound_flush c SO) as (SF & PF & HF & LF & CF). destruct (b_pend c) as [|x pd] eqn:E.
  - apply seek_sound; try assumption. replace (b_flush z c) with c in HF by (unfold b_flush; rewrite E; reflexivity). exact HF.
  - destruct (_ && _); [exact SO|]. apply seek_sound; assumption.
Qed.

Lemma step_sound : forall o c, sound c -> safe_op o -> sound (snd (bstep z o c)).
Proof.
  intros [p| |v|bs|n] c SO O; cbn [bstep safe_op snd] in *.
  - apply setpos_sound; assumption.
  - pose proof (getpos_sound c SO) as X. destruct (b_getpos z c). exact X.
  - apply setcomp_sound. exact SO.
  - apply write_sound. exact SO.
  - destruct O.
Qed.
Lemma runs_sound : forall os c, sound c -> Forall safe_op os -> sound (snd (bruns z os c)).
Proof.
  induction os as [|o os IH]; intros c SO F; cbn [bruns]; [exact SO|]. pose proof (step_sound o c SO (Forall_inv F)) as X. destruct (bstep z o c) as [r c1]. cbn [snd] in X.
  specialize (IH c1 X (Forall_inv_tail F)). destruct (bruns z os c1). exact IH.
Qed.
Lemma bruns_app : forall a b c, snd (bruns z (a ++ b) c) = snd (bruns z b (snd (bruns z a c))).
Proof.
  induction a as [|o a IH]; intros b c; cbn [app bruns]; [reflexivity|]. destruct (bstep z o c) as [r c1]. specialize (IH b c1).
  destruct (bruns z (a ++ b) c1). destruct (bruns z a c1). exact IH.
Qed.

(** *** A session: the header and some room are written first, [t] being the beginning of
    it; all later positions are behind [t]. *)
Lemma getpos_same : forall c, b_comp c = false -> snd (b_getpos z c) = c.
Proof. intros c C. unfold b_getpos. rewrite C. destruct (b_pend c); reflexivity. Qed.

Lemma start_sound : forall hd room, has (hd ++ room) -> (length hd < BUFSZ)%nat ->
  sound (snd (bruns z [OWrite hd; OGetPos; OWrite room; OGetPos] (b_open []))).
Proof.
  intros hd room H L. pose proof (has_fits _ H) as F.
  assert (B0 : begun [] (b_open [])).
  { constructor; [reflexivity|reflexivity| |auto]. intros f S. cbn in S. inversion S; subst. exists t, []. symmetry. apply app_nil_r. }
  cbn [bruns bstep]. pose proof (write_begun hd [] (b_open []) B0 BUFSZ_pos (fits_left _ _ F)) as B1. cbn [app] in B1.
  assert (P1 : b_pend (b_write z hd (b_open [])) = hd).
  { unfold b_write. cbn [b_open b_buf b_pend length]. rewrite Nat.sub_0_r. destruct (Nat.leb_spec (length hd) BUFSZ); [reflexivity|lia]. }
  generalize dependent (b_write z hd (b_open [])). intros c1 B1 P1.
  pose proof (getpos_same c1 (proj1 (be_pos _ _ B1))) as G1. destruct (b_getpos z c1) as [q c1']. cbn [snd] in G1. subst c1'.
  assert (B2 : begun (hd ++ room) (b_write z room c1)) by (apply write_begun; [exact B1|rewrite P1; exact L|exact F]).
  generalize dependent (b_write z room c1). intros c2 B2.
  pose proof (getpos_same c2 (proj1 (be_pos _ _ B2))) as G2. destruct (b_getpos z c2) as [q2 c2']. cbn [snd] in G2. subst c2'. cbn [snd].
  eapply begun_sound; eassumption.
Qed.

(** A session that has not been completed. *)
Theorem unfinished_sound : forall hd room os f, has (hd ++ room) -> (length hd < BUFSZ)%nat -> Forall safe_op os ->
  stops [] (physical z (OWrite hd :: OGetPos :: OWrite room :: OGetPos :: os) []) f -> fits f.
Proof.
  intros hd room os f H L F S. unfold physical in S. change (OWrite hd :: OGetPos :: OWrite room :: OGetPos :: os) with ([OWrite hd; OGetPos; OWrite room; OGetPos] ++ os) in S.
  rewrite bruns_app in S. pose proof (runs_sound os _ (start_sound hd room H L) F) as X. apply sound_flush in X. exact (so_seen _ (proj1 X) f S).
Qed.

(** A session that was completed by writing [ix] at [p], within [t]: that is one physical
    write, the last one. *)
Theorem index_last : forall hd room os p ix, has (hd ++ room) -> (length hd < BUFSZ)%nat -> Forall safe_op os -> 0 <= p < zlen t -> ix <> [] -> (length ix <= BUFSZ)%nat ->
  exists ws, physical z (OWrite hd :: OGetPos :: OWrite room :: OGetPos :: os ++ [OSetPos p; OSetComp false; OWrite ix]) [] = ws ++ [(p, ix)] /\
    forall f, stops [] ws f -> fits f.
Proof.
  intros hd room os p ix H L F P NE LX. unfold physical.
  change (OWrite hd :: OGetPos :: OWrite room :: OGetPos :: os ++ [OSetPos p; OSetComp false; OWrite ix]) with ([OWrite hd; OGetPos; OWrite room; OGetPos] ++ os ++ [OSetPos p; OSetComp false; OWrite ix]).
  rewrite !bruns_app. pose proof (runs_sound os _ (start_sound hd room H L) F) as X.
  set (c0 := snd (bruns z os _)) in *. clearbody c0. cbn [bruns bstep]. cbn [snd].
  destruct (sound_flush c0 X) as (SF & PF & HF & LF & CF).
  assert (SP : b_setpos z p c0 = b_seek p (b_flush z c0)).
  { unfold b_setpos. destruct (b_pend c0) as [|y pd] eqn:E; [unfold b_flush; rewrite E; reflexivity|]. destruct (b_comp c0) eqn:CC; cbn [negb]; [rewrite Bool.andb_false_r; reflexivity|]. rewrite Bool.andb_true_r.
    destruct (Z.eqb_spec p (b_phys c0 + zlen (y :: pd))) as [Q|Q]; [|reflexivity]. exfalso.
    destruct (so_pos _ X) as [[_ U]|(_ & U & W)]; [pose proof (zlen_nonneg (y :: pd)); lia|]. rewrite E in W. destruct W as [b W].
    apply (f_equal zlen) in W. rewrite !zlen_app in W. pose proof (zlen_nonneg b). lia. }
  rewrite SP. clear SP. set (c1 := b_flush z c0) in *. clearbody c1. clear X c0 CF.
  assert (SK : b_seek p c1 = mkBS (b_file c1) p [] 0 [] (b_comp c1) (b_log c1)).
  { unfold b_seek. rewrite (so_buf _ SF), PF. reflexivity. }
  rewrite SK. clear SK.
  assert (SC : b_setcomp z false (mkBS (b_file c1) p [] 0 [] (b_comp c1) (b_log c1)) = mkBS (b_file c1) p [] 0 [] false (b_log c1)).
  { unfold b_setcomp. cbn [b_comp]. destruct (b_comp c1); reflexivity. }
  rewrite SC. clear SC. exists (rev (b_log c1)). split; [|exact (so_seen _ SF)].
  unfold b_write. cbn [b_buf b_pend length]. rewrite Nat.sub_0_r. destruct (Nat.leb_spec (length ix) BUFSZ); [|lia].
  unfold b_append, b_flush. cbn [b_pend app b_comp negb]. destruct ix as [|i ix]; [congruence|]. reflexivity.
Qed.
End T.

(** The physical writes, all made, give the file as the ideal stream has it. *)
Lemma physical_final : forall z ops f rs a, aruns z ops (as_open f) = Some (rs, a) ->
  b_final z (snd (bruns z ops (b_open f))) = as_final z a.
Proof. intros z ops f rs a R. destruct (runs_sim z ops (b_open f) (as_open f) rs a (open_sim z f) R) as [_ S]. apply final_sim. exact S. Qed.

(** ** The log of the physical writes is complete *)

Definition logged_in (f : list Z) (c : bstream) : Prop := replay f (rev (b_log c)) = b_file c.

Lemma li_write : forall f bs c, logged_in f c -> logged_in f (x_write bs c).
Proof. intros f bs c H. unfold logged_in in *. cbn [x_write b_log b_file rev]. rewrite replay_app, H. reflexivity. Qed.
Lemma li_flush : forall z f c, logged_in f c -> logged_in f (b_flush z c).
Proof.
  intros z f c H. unfold b_flush. destruct (b_pend c); [exact H|]. destruct (negb _); [exact (li_write f _ c H)|]. cbv zeta. destruct (_ <? _).
  - exact (li_write f _ c H).
  - exact (li_write f _ _ (li_write f _ c H)).
Qed.
Lemma li_fill : forall z f c, logged_in f c -> logged_in f (snd (b_fill z c)).
Proof.
  intros z f c H. unfold b_fill. destruct (negb _); [exact H|]. destruct (x_read 3 c) as [h c1] eqn:E. assert (H1 : logged_in f c1) by (injection E as _ <-; exact H).
  destruct h as [|t [|b1 [|b2 [|? ?]]]]; exact H1.
Qed.
Lemma li_read_loop : forall z f fuel n c, logged_in f c -> logged_in f (snd (b_read_loop z fuel n c)).
Proof.
  intros z f. induction fuel as [|k IH]; intros n c H; cbn [b_read_loop]; [exact H|]. destruct n as [|n]; [exact H|].
  assert (X : logged_in f (snd (if (length (b_buf c) <=? b_nread c)%nat then b_fill z c else (true, c)))) by (destruct (_ <=? _)%nat; [apply li_fill; exact H|exact H]).
  destruct (if (length (b_buf c) <=? b_nread c)%nat then b_fill z c else (true, c)) as [ok c1]. cbn [snd] in X. destruct ok; [|exact X]. cbv zeta.
  match goal with |- context [b_read_loop z k ?m ?s] => specialize (IH m s X); destruct (b_read_loop z k m s) end. exact IH.
Qed.
Lemma li_write_loop : forall z f fuel bs c, logged_in f c -> logged_in f (b_write_loop z fuel bs c).
Proof.
  intros z f. induction fuel as [|k IH]; intros bs c H; cbn [b_write_loop]; [exact H|]. destruct bs as [|b bs]; [exact H|]. cbv zeta. apply IH. destruct (_ <=? _)%nat; [apply li_flush|]; exact H.
Qed.
Lemma li_seek : forall f p c, logged_in f c -> logged_in f (b_seek p c).
Proof. intros f p c H. unfold b_seek. cbv zeta. destruct (_ && _)%bool; exact H. Qed.
Lemma li_step : forall z f o c, logged_in f c -> logged_in f (snd (bstep z o c)).
Proof.
  intros z f [p| |v|bs|n] c H; cbn [bstep snd].
  - unfold b_setpos. destruct (b_pend c); [apply li_seek; exact H|]. destruct (_ && _)%bool; [exact H|apply li_seek, li_flush; exact H].
  - unfold b_getpos. destruct (b_pend c); [exact H|]. cbv zeta. destruct (b_comp c); [apply li_flush|]; exact H.
  - unfold b_setcomp. cbv zeta. assert (X : logged_in f (if b_comp c || v then b_flush z c else c)) by (destruct (_ || _); [apply li_flush|]; exact H).
    destruct (Bool.eqb _ _); exact X.
  - unfold b_write. cbv zeta. assert (X : logged_in f (match b_buf c with [] => c | _ => mkBS (b_file c) (b_phys c - zlen (b_buf c) + Z.of_nat (b_nread c)) [] 0 (b_pend c) (b_comp c) (b_log c) end)) by (destruct (b_buf c); exact H).
    destruct (_ <=? _)%nat; [exact X|apply li_write_loop; exact X].
  - pose proof (li_flush z f c H) as X. unfold b_read. cbv zeta. destruct (_ <=? _)%nat; [exact X|].
    pose proof (li_read_loop z f n n _ X) as Y. destruct (b_read_loop z n n (b_flush z c)). exact Y.
Qed.
Lemma li_runs : forall z f os c, logged_in f c -> logged_in f (snd (bruns z os c)).
Proof.
  intros z f. induction os as [|o os IH]; intros c H; cbn [bruns]; [exact H|]. pose proof (li_step z f o c H) as X. destruct (bstep z o c) as [r c1]. cbn [snd] in X.
  specialize (IH c1 X). destruct (bruns z os c1). exact IH.
Qed.
Theorem physical_replay : forall z ops f, replay f (physical z ops f) = b_final z (snd (bruns z ops (b_open f))).
Proof. intros z ops f. unfold physical, b_final. apply (li_flush z f), li_runs. reflexivity. Qed.
