(** * Password: the scrambling of TXFileStream

    src/gdlib/gmsstrm.cpp 450-468 (SetPassWord) and 538-580 (ApplyPassWord, Read,
    Write). *)

From Verif Require Import Base AStream.

(** SetPassWord: blanks that follow a blank are dropped ([bb] remembers a blank), every
    other byte is rotated right by one bit. *)
Fixpoint pw_norm (bb : bool) (s : str) : list Z :=
  match s with
  | [] => []
  | c :: r =>
      if (c =? 32) && bb then pw_norm true r
      else (if c mod 2 =? 0 then c / 2 else 128 + c / 2) :: pw_norm (c =? 32) r
  end.
Definition set_password (s : str) : list Z := pw_norm false s.

(** FPassWord[i] of a std::string: the terminating NUL at index length. *)
Definition pw_at (pw : list Z) (i : nat) : Z := nth i pw 0.

(** The loop of ApplyPassWord, gmsstrm.cpp 540-547; [nxt] is FPwNxt. *)
Fixpoint pw_loop (pw : list Z) (nxt : Z) (bs : list Z) : list Z :=
  match bs with
  | [] => []
  | b :: r =>
      let n1 := nxt + 1 in
      let n := if n1 >? zlen pw then 1 else n1 in
      Z.lxor b (pw_at pw (Z.to_nat n)) :: pw_loop pw n r
  end.

(** ApplyPassWord at offset [off].  [int(Offs) % L] is only meaningful for offsets below
    2^31: above, the conversion wraps and the index may become negative. *)
Definition apply_password (pw : list Z) (off : Z) (bs : list Z) : outcome (list Z) :=
  if (off <? 0) || (INT_MAX <? off) then UB
  else Done (pw_loop pw (off mod zlen pw) bs).

(** TXFileStream::Write / Read with a password (an empty one switches scrambling off). *)
Definition px_write (pw : list Z) (f : list Z) (p : Z) (bs : list Z) : outcome (list Z) :=
  match pw with
  | [] => Done (pwrite f p bs)
  | _ => obind (apply_password pw p bs) (fun e => Done (pwrite f p e))
  end.
Definition px_read (pw : list Z) (f : list Z) (p : Z) (n : nat) : outcome (list Z) :=
  let d := firstn n (pread f p) in
  match pw with [] => Done d | _ => apply_password pw p d end.

(** ** Facts *)

(** The key byte for absolute position [p]. *)
Definition pw_key (pw : list Z) (p : Z) : Z := pw_at pw (Z.to_nat (p mod zlen pw + 1)).

Fixpoint scramble (pw : list Z) (p : Z) (bs : list Z) : list Z :=
  match bs with
  | [] => []
  | b :: r => Z.lxor b (pw_key pw p) :: scramble pw (p + 1) r
  end.

Lemma pw_loop_scramble : forall pw bs nxt p, pw <> [] -> 0 <= p ->
  (nxt = p mod zlen pw \/ (p mod zlen pw = 0 /\ nxt = zlen pw)) ->
  pw_loop pw nxt bs = scramble pw p bs.
Proof.
  intros pw bs. assert (NN := zlen_nonneg pw).
  induction bs as [| b bs IH]; intros nxt p N P H; [reflexivity|].
  assert (LP : 0 < zlen pw) by (destruct pw; [congruence|rewrite zlen_cons; pose proof (zlen_nonneg pw); lia]).
  pose proof (Z.mod_pos_bound p (zlen pw) LP) as MB.
  cbn [pw_loop scramble].
  assert (EN : (if nxt + 1 >? zlen pw then 1 else nxt + 1) = p mod zlen pw + 1).
  { rewrite Z.gtb_ltb. destruct (Z.ltb_spec (zlen pw) (nxt + 1)); lia. }
  rewrite EN. f_equal. apply IH; [assumption|lia|].
  destruct (Z.eq_dec (p mod zlen pw + 1) (zlen pw)) as [E|E].
  - right. split; [|exact E].
    replace (p + 1) with (zlen pw + (p / zlen pw) * zlen pw) by (pose proof (Z.div_mod p (zlen pw)); lia).
    rewrite Z.mod_add by lia. apply Z.mod_same. lia.
  - left. symmetry. replace (p + 1) with ((p mod zlen pw + 1) + (p / zlen pw) * zlen pw)
      by (pose proof (Z.div_mod p (zlen pw)); lia).
    rewrite Z.mod_add by lia. apply Z.mod_small. lia.
Qed.

Lemma scramble_invol : forall pw bs p, scramble pw p (scramble pw p bs) = bs.
Proof.
  intros pw. induction bs as [| b bs IH]; intros p; [reflexivity|].
  cbn [scramble]. rewrite IH. f_equal. rewrite Z.lxor_assoc, Z.lxor_nilpotent, Z.lxor_0_r. reflexivity.
Qed.

Lemma scramble_app : forall pw a b p, scramble pw p (a ++ b) = scramble pw p a ++ scramble pw (p + zlen a) b.
Proof.
  intros pw. induction a as [| x a IH]; intros b p.
  - unfold zlen; cbn. rewrite Z.add_0_r. reflexivity.
  - cbn [app scramble]. rewrite IH, zlen_cons. do 2 f_equal. f_equal. lia.
Qed.

Lemma scramble_length : forall pw bs p, length (scramble pw p bs) = length bs.
Proof. intros pw. induction bs as [| b bs IH]; intros p; [reflexivity|]. cbn. rewrite IH. reflexivity. Qed.

Lemma apply_password_spec : forall pw p bs, pw <> [] -> 0 <= p <= INT_MAX ->
  apply_password pw p bs = Done (scramble pw p bs).
Proof.
  intros pw p bs N P. unfold apply_password.
  destruct (Z.ltb_spec p 0); [lia|]. destruct (Z.ltb_spec INT_MAX p); [lia|]. cbn [orb].
  f_equal. apply pw_loop_scramble; [assumption|lia|left; reflexivity].
Qed.

Lemma scramble_firstn : forall pw n bs p, firstn n (scramble pw p bs) = scramble pw p (firstn n bs).
Proof.
  intros pw. induction n as [| n IH]; intros [| b bs] p; try reflexivity. cbn. rewrite IH. reflexivity.
Qed.
Lemma scramble_skipn : forall pw n bs p, skipn n (scramble pw p bs) = scramble pw (p + Z.of_nat n) (skipn n bs).
Proof.
  intros pw. induction n as [| n IH]; intros bs p.
  - cbn. rewrite Z.add_0_r. reflexivity.
  - destruct bs as [| b bs]; [reflexivity|]. cbn [scramble skipn]. rewrite IH. f_equal. lia.
Qed.

(** A file written in pieces. *)
Fixpoint px_writes (pw f : list Z) (p : Z) (parts : list (list Z)) : outcome (list Z) :=
  match parts with
  | [] => Done f
  | b :: r => obind (px_write pw f p b) (fun f' => px_writes pw f' (p + zlen b) r)
  end.
(** ... and read in pieces. *)
Fixpoint px_reads (pw f : list Z) (p : Z) (ns : list nat) : outcome (list Z) :=
  match ns with
  | [] => Done []
  | n :: r => obind (px_read pw f p n) (fun d => obind (px_reads pw f (p + Z.of_nat n) r) (fun d' => Done (d ++ d')))
  end.

Definition total (ns : list nat) : nat := fold_right Nat.add O ns.

Lemma px_writes_spec : forall pw parts f p, 0 <= p -> p + zlen (concat parts) <= INT_MAX ->
  px_writes pw f p parts =
  Done (pwrite f p (match pw with [] => concat parts | _ => scramble pw p (concat parts) end)).
Proof.
  intros pw. induction parts as [| b r IH]; intros f p P L.
  - cbn. destruct pw; reflexivity.
  - cbn [px_writes concat] in *. rewrite zlen_app in L. pose proof (zlen_nonneg (concat r)). pose proof (zlen_nonneg b).
    unfold px_write. destruct pw as [| k pw'] eqn:EP.
    + cbn [obind]. rewrite IH by lia. rewrite pwrite_pwrite by assumption. reflexivity.
    + rewrite <- EP in *. rewrite apply_password_spec by (subst; discriminate || lia). cbn [obind].
      rewrite IH by lia. rewrite EP. rewrite <- EP.
      assert (ZL : zlen (scramble pw p b) = zlen b) by (unfold zlen; rewrite scramble_length; reflexivity).
      rewrite <- ZL at 1. rewrite pwrite_pwrite by assumption. rewrite scramble_app. reflexivity.
Qed.

Lemma px_reads_spec : forall pw ns f p, 0 <= p -> p + Z.of_nat (total ns) <= INT_MAX ->
  (total ns <= length (pread f p))%nat ->
  px_reads pw f p ns =
  Done (let d := firstn (total ns) (pread f p) in match pw with [] => d | _ => scramble pw p d end).
Proof.
  intros pw. induction ns as [| n r IH]; intros f p P L E.
  - cbn. destruct pw; reflexivity.
  - cbn [px_reads total fold_right] in *. fold (total r) in *. unfold px_read.
    assert (SP : pread f (p + Z.of_nat n) = skipn n (pread f p)).
    { unfold pread. rewrite Z2Nat.inj_add by lia. rewrite Nat2Z.id.
      clear. generalize (Z.to_nat p). intros q. revert f. induction q as [| q IHq]; intros f; [reflexivity|].
      destruct f as [| x f]; [rewrite !skipn_nil; reflexivity|]. cbn [skipn Nat.add]. apply IHq. }
    assert (FS : firstn (n + total r) (pread f p) = firstn n (pread f p) ++ firstn (total r) (skipn n (pread f p))).
    { rewrite <- (firstn_skipn n (pread f p)) at 1. rewrite firstn_app.
      rewrite firstn_length, Nat.min_l by lia. rewrite firstn_all2 by (rewrite firstn_length; lia).
      f_equal. f_equal. lia. }
    assert (LN : zlen (firstn n (pread f p)) = Z.of_nat n).
    { unfold zlen. rewrite firstn_length. lia. }
    destruct pw as [| k pw'] eqn:EP.
    + cbn [obind]. rewrite IH; [|lia|lia|rewrite SP, skipn_length; lia].
      cbn [obind]. rewrite FS, SP. reflexivity.
    + rewrite <- EP in *. rewrite apply_password_spec by (subst; discriminate || lia). cbn [obind].
      rewrite IH; [|lia|lia|rewrite SP, skipn_length; lia]. rewrite EP. rewrite <- EP.
      cbn [obind]. cbv zeta. rewrite FS, SP, scramble_app, LN. reflexivity.
Qed.

Lemma pread_pwrite_same : forall f p bs, 0 <= p -> firstn (length bs) (pread (pwrite f p bs) p) = bs.
Proof.
  intros f p bs P. destruct bs as [| b bs]; [reflexivity|].
  destruct (pwrite_shape f p (b :: bs) P ltac:(discriminate)) as (pre & tail & L & E & W).
  rewrite W. unfold pread. rewrite <- L, skipn_zlen_app.
  rewrite firstn_app, firstn_all, Nat.sub_diag. cbn [firstn]. apply app_nil_r.
Qed.

(** Whatever the password, position and division into pieces. *)
Lemma password_roundtrip : forall pw f p parts ns,
  0 <= p -> p + zlen (concat parts) <= INT_MAX -> total ns = length (concat parts) ->
  obind (px_writes pw f p parts) (fun f' => px_reads pw f' p ns) = Done (concat parts).
Proof.
  intros pw f p parts ns P L E. rewrite px_writes_spec by assumption. cbn [obind].
  set (w := match pw with [] => concat parts | _ => scramble pw p (concat parts) end).
  assert (LW : length w = length (concat parts)).
  { unfold w. destruct pw; [reflexivity|]. apply scramble_length. }
  assert (RW : firstn (total ns) (pread (pwrite f p w) p) = w).
  { rewrite E, <- LW. apply pread_pwrite_same. assumption. }
  rewrite px_reads_spec.
  - cbv zeta. rewrite RW. unfold w. destruct pw; [reflexivity|]. rewrite scramble_invol. reflexivity.
  - assumption.
  - rewrite E. exact L.
  - assert (H := f_equal (@length Z) RW). rewrite firstn_length in H. lia.
Qed.
