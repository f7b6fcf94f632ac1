(** * AStream: the file seen through an ideal stream

    What TBufferedFileStream (src/gdlib/gmsstrm.cpp 594-785) is meant to do: random
    access to the bytes of a file, with an optional block compression.  The real
    buffered stream is modelled in BufStream.v, where it is proved to behave like
    this one for every sequence of operations.  The GDX machine is built on this
    stream. *)

From Verif Require Import Base Prim.

(** ** Compression as an oracle

    zlib is not modelled.  [zlib] packages any pair of functions with the only fact
    the library relies on: decompressing what was compressed gives it back.  It also says
    what the byte order of the machine is: everything is written in it (gmsstrm.hpp 125-130,
    WriteValue writes the bytes a variable has in memory). *)
Record zlib := mkZ {
  z_host : border;
  zc : list Z -> list Z;
  zd : list Z -> list Z;
  zc_bytes : forall x, bytes_ok x -> bytes_ok (zc x);
  zd_zc : forall x, bytes_ok x -> zd (zc x) = x
}.

(** gmsstrm.hpp: BufferSize. *)
Definition BUFSZ : nat := Z.to_nat 32768.
Global Opaque BUFSZ.

Lemma BUFSZ_val : Z.of_nat BUFSZ = 32768.
Proof. Transparent BUFSZ. unfold BUFSZ. rewrite Z2Nat.id; [reflexivity|lia]. Opaque BUFSZ. Qed.

Lemma BUFSZ_pos : (0 < BUFSZ)%nat.
Proof. pose proof BUFSZ_val. lia. Qed.

(** ** Random access to a byte sequence *)

(** Writing [bs] at offset [p] (POSIX: a gap past the end is filled with zeros). *)
Definition pwrite (f : list Z) (p : Z) (bs : list Z) : list Z :=
  match bs with
  | [] => f
  | _ => let f' := f ++ repeat 0 (Z.to_nat (p - zlen f)) in
         firstn (Z.to_nat p) f' ++ bs ++ skipn (Z.to_nat p + length bs) f'
  end.

(** The bytes from offset [p] on. *)
Definition pread (f : list Z) (p : Z) : list Z := skipn (Z.to_nat p) f.

(** ** Blocks of the compressed format *)

(** gmsstrm.cpp 689-709 (FlushBuffer with compression): a 3-byte header - 1 when the
    compressed form is shorter, 0 when the data is stored - and the length. *)
Definition enc_block (z : zlib) (d : list Z) : list Z :=
  let c := zc z d in
  if zlen c <? zlen d
  then 1 :: zlen c / 256 mod 256 :: zlen c mod 256 :: c
  else 0 :: zlen d / 256 mod 256 :: zlen d mod 256 :: d.

(** Data is cut into pieces of BufferSize bytes. *)
Fixpoint chunks (fuel : nat) (l : list Z) : list (list Z) :=
  match fuel with
  | O => []
  | S k => match l with
           | [] => []
           | _ => firstn BUFSZ l :: chunks k (skipn BUFSZ l)
           end
  end.

(** The bytes that reach the file for logical data [l]. *)
Definition phys (z : zlib) (comp : bool) (l : list Z) : list Z :=
  if comp then flat_map (enc_block z) (chunks (length l) l) else l.

(** gmsstrm.cpp 594-622 (FillBuffer): reading blocks until the data ends or a block
    yields nothing. *)
Section Unblocks.
Context (z : zlib).
Fixpoint unblocks (fuel : nat) (l : list Z) : list Z :=
  match fuel with
  | O => []
  | S k => match l with
           | t :: b1 :: b2 :: r =>
               let n := Z.to_nat (b1 * 256 + b2) in
               let d := firstn n r in
               let out := if t =? 0 then d else zd z d in
               match out with
               | [] => []
               | _ => out ++ unblocks k (skipn n r)
               end
           | _ => []
           end
  end.
End Unblocks.

(** The logical data that can be read from physical bytes [l]. *)
Definition unphys (z : zlib) (comp : bool) (l : list Z) : list Z :=
  if comp then unblocks z (length l) l else l.

(** ** The stream *)

Inductive amode :=
| AIdle (clean : bool)       (* positioned; [clean]: nothing has been read ahead *)
| AWr (pend : list Z)        (* data written since the position was set *)
| ARd (view : list Z)        (* remaining logical data *)
| ALost.                     (* position unspecified: SetPosition must come next *)

Record astream := mkAS {
  as_file : list Z;
  as_pos : Z;
  as_comp : bool;
  as_mode : amode
}.

Definition as_flush (z : zlib) (s : astream) : astream :=
  match as_mode s with
  | AWr pend =>
      let b := phys z (as_comp s) pend in
      mkAS (pwrite (as_file s) (as_pos s) b) (as_pos s + zlen b) (as_comp s) (AIdle true)
  | _ => s
  end.

Definition as_setpos (z : zlib) (p : Z) (s : astream) : astream :=
  let s1 := as_flush z s in
  let clean := match as_mode s1 with AIdle c => c || as_comp s | ARd _ => as_comp s | _ => false end in
  mkAS (as_file s1) p (as_comp s1) (AIdle clean).

Definition as_setcomp (z : zlib) (c : bool) (s : astream) : astream :=
  let s1 := if as_comp s || c then as_flush z s else s in
  if Bool.eqb (as_comp s1) c then s1
  else mkAS (as_file s1) (as_pos s1) c
         (match as_mode s1 with AIdle true => AIdle true | _ => ALost end).

(** [None]: an operation the library never performs in this situation. *)
Definition as_getpos (z : zlib) (s : astream) : option (Z * astream) :=
  match as_mode s with
  | AIdle _ => Some (as_pos s, s)
  | AWr pend =>
      if as_comp s then let s1 := as_flush z s in Some (as_pos s1, s1)
      else Some (as_pos s + zlen pend, s)
  | ARd _ => if as_comp s then None else Some (as_pos s, s)
  | ALost => None
  end.

Definition as_write (bs : list Z) (s : astream) : option astream :=
  match as_mode s with
  | AIdle _ => Some (mkAS (as_file s) (as_pos s) (as_comp s) (AWr bs))
  | AWr pend => Some (mkAS (as_file s) (as_pos s) (as_comp s) (AWr (pend ++ bs)))
  | _ => None
  end.

(** The remaining logical data, from the current position. *)
Definition as_view (z : zlib) (s : astream) : option (list Z) :=
  match as_mode s with
  | AIdle _ => Some (unphys z (as_comp s) (pread (as_file s) (as_pos s)))
  | ARd v => Some v
  | _ => None
  end.

(** Consume a prefix: [v'] is what remains of the view. *)
Definition as_consume (v' : list Z) (n : Z) (s : astream) : astream :=
  mkAS (as_file s) (if as_comp s then as_pos s else as_pos s + n) (as_comp s) (ARd v').

Definition as_read (z : zlib) (n : nat) (s : astream) : option (list Z * astream) :=
  match as_view z s with
  | Some v => if (n <=? length v)%nat
              then Some (firstn n v, as_consume (skipn n v) (Z.of_nat n) s)
              else None
  | None => None
  end.

(** Running a parser of the file format on the stream. *)
Definition as_parse {A} (z : zlib) (p : parser A) (s : astream) : option (A * astream) :=
  match as_view z s with
  | Some v => match p v with
              | Some (a, v') => Some (a, as_consume v' (zlen v - zlen v') s)
              | None => None
              end
  | None => None
  end.

(** The file after the stream is closed (the destructor flushes). *)
Definition as_final (z : zlib) (s : astream) : list Z := as_file (as_flush z s).

(** ** Facts *)

Lemma firstn_zlen : forall (l : list Z) n, 0 <= n <= zlen l -> zlen (firstn (Z.to_nat n) l) = n.
Proof. intros l n H. unfold zlen in *. rewrite firstn_length. lia. Qed.

Lemma firstn_zlen_app : forall (l r : list Z), firstn (Z.to_nat (zlen l)) (l ++ r) = l.
Proof.
  intros l r. unfold zlen. rewrite Nat2Z.id, firstn_app, firstn_all, Nat.sub_diag. cbn [firstn]. apply app_nil_r.
Qed.

Lemma skipn_zlen_app : forall (l r : list Z), skipn (Z.to_nat (zlen l)) (l ++ r) = r.
Proof.
  intros l r. unfold zlen. rewrite Nat2Z.id, skipn_app, skipn_all, Nat.sub_diag. reflexivity.
Qed.

Lemma pwrite_end : forall f bs, pwrite f (zlen f) bs = f ++ bs.
Proof.
  intros f bs. unfold pwrite. destruct bs as [| b bs]; [symmetry; apply app_nil_r|].
  rewrite Z.sub_diag. cbn [Z.to_nat repeat]. rewrite app_nil_r. unfold zlen. rewrite Nat2Z.id.
  rewrite firstn_all, skipn_all2 by lia. rewrite app_nil_r. reflexivity.
Qed.

Lemma pwrite_shape : forall f p bs, 0 <= p -> bs <> [] ->
  exists pre tail, zlen pre = p /\ f ++ repeat 0 (Z.to_nat (p - zlen f)) = pre ++ tail
    /\ pwrite f p bs = pre ++ bs ++ skipn (length bs) tail.
Proof.
  intros f p bs P N. set (f' := f ++ repeat 0 (Z.to_nat (p - zlen f))).
  exists (firstn (Z.to_nat p) f'), (skipn (Z.to_nat p) f'). split.
  - apply firstn_zlen. unfold f'. rewrite zlen_app, zlen_repeat. pose proof (zlen_nonneg f). lia.
  - split; [symmetry; apply firstn_skipn|]. unfold pwrite. destruct bs as [| b bs]; [congruence|].
    fold f'. f_equal. f_equal.
    assert (SS : forall a b (l : list Z), skipn a (skipn b l) = skipn (b + a) l).
    { intros a b0. induction b0 as [| b0 IH]; intros l; [reflexivity|]. destruct l; [rewrite !skipn_nil; reflexivity|].
      cbn [skipn Nat.add]. apply IH. }
    rewrite SS. reflexivity.
Qed.

(** Two adjacent writes are one. *)
Lemma pwrite_pwrite : forall f p a b, 0 <= p ->
  pwrite (pwrite f p a) (p + zlen a) b = pwrite f p (a ++ b).
Proof.
  intros f p a b P. destruct a as [| x a].
  { unfold zlen. cbn [length]. rewrite Z.add_0_r. reflexivity. }
  destruct b as [| y b]; [rewrite app_nil_r; reflexivity|].
  destruct (pwrite_shape f p (x :: a) P ltac:(discriminate)) as (pre & tail & L & E & W).
  destruct (pwrite_shape f p ((x :: a) ++ y :: b) P ltac:(discriminate)) as (pre' & tail' & L' & E' & W').
  rewrite E in E'.
  assert (pre = pre' /\ tail = tail') as [<- <-].
  { assert (length pre = length pre') by (unfold zlen in *; lia).
    clear - E' H. revert pre' E' H. induction pre as [| u pre IH]; intros [| u' pre'] E H; try discriminate.
    - auto.
    - cbn in E. injection E as <- E. injection H as H. destruct (IH _ E H) as [-> ->]. auto. }
  rewrite W, W'. set (A := x :: a) in *. set (B := y :: b) in *.
  assert (SS : forall a b (l : list Z), skipn a (skipn b l) = skipn (b + a) l).
  { intros a0 b0. induction b0 as [| b0 IH]; intros l; [reflexivity|]. destruct l; [rewrite !skipn_nil; reflexivity|].
    cbn [skipn Nat.add]. apply IH. }
  set (t := skipn (length A) tail).
  assert (WW : forall t, pwrite (pre ++ A ++ t) (p + zlen A) B = pre ++ A ++ B ++ skipn (length B) t).
  { intros t0. unfold pwrite. unfold B at 1.
    replace (Z.to_nat (p + zlen A - zlen (pre ++ A ++ t0))) with O
      by (rewrite !zlen_app; pose proof (zlen_nonneg t0); lia).
    cbn [repeat]. rewrite app_nil_r. rewrite <- L, <- zlen_app. rewrite (app_assoc pre A t0).
    rewrite firstn_zlen_app. rewrite <- !app_assoc. f_equal. f_equal. f_equal.
    rewrite <- SS. rewrite (app_assoc pre A t0), skipn_zlen_app. reflexivity. }
  rewrite WW. unfold t. rewrite SS. rewrite <- !app_assoc, app_length. reflexivity.
Qed.

(** Overwriting in place. *)
Lemma pwrite_middle : forall a b c bs, length b = length bs ->
  pwrite (a ++ b ++ c) (zlen a) bs = a ++ bs ++ c.
Proof.
  intros a b c bs L. unfold pwrite. destruct bs as [| x bs].
  - destruct b; [reflexivity|discriminate].
  - replace (Z.to_nat (zlen a - zlen (a ++ b ++ c))) with O
      by (rewrite zlen_app; pose proof (zlen_nonneg (b ++ c)); lia).
    cbn [repeat]. rewrite app_nil_r. unfold zlen. rewrite Nat2Z.id.
    rewrite firstn_app, firstn_all, Nat.sub_diag. cbn [firstn]. rewrite app_nil_r.
    f_equal. f_equal. rewrite <- L. rewrite skipn_app, skipn_all2 by lia.
    replace (length a + length b - length a)%nat with (length b) by lia.
    rewrite skipn_app, skipn_all, Nat.sub_diag. reflexivity.
Qed.

Lemma chunks_step : forall k l, l <> [] -> chunks (S k) l = firstn BUFSZ l :: chunks k (skipn BUFSZ l).
Proof. intros k [| a l] H; [congruence|reflexivity]. Qed.

Lemma chunks_nil : forall k, chunks k [] = [].
Proof. intros [|k]; reflexivity. Qed.

(** Enough fuel is enough. *)
Lemma chunks_fuel : forall k k' l, (length l <= k)%nat -> (length l <= k')%nat -> chunks k l = chunks k' l.
Proof.
  induction k as [| k IH]; intros [| k'] l H H'.
  - reflexivity.
  - destruct l; [reflexivity|cbn in H; lia].
  - destruct l; [reflexivity|cbn in H'; lia].
  - destruct l as [| a l]; [reflexivity|]. rewrite !chunks_step by discriminate. f_equal.
    assert (length (skipn BUFSZ (a :: l)) < length (a :: l))%nat.
    { rewrite skipn_length. pose proof BUFSZ_pos. cbn [length]. lia. }
    apply IH; lia.
Qed.

Lemma chunks_concat : forall k l, (length l <= k)%nat -> concat (chunks k l) = l.
Proof.
  induction k as [| k IH]; intros l H.
  - destruct l; [reflexivity|cbn in H; lia].
  - destruct l as [| a l]; [reflexivity|]. rewrite chunks_step by discriminate.
    cbn [concat]. rewrite IH; [apply firstn_skipn|].
    rewrite skipn_length. pose proof BUFSZ_pos. cbn [length] in *. lia.
Qed.

Lemma chunks_ok : forall k l c, In c (chunks k l) -> c <> [] /\ (length c <= BUFSZ)%nat /\ incl c l.
Proof.
  induction k as [| k IH]; intros l c; [intros []|].
  destruct l as [| a l]; [intros []|]. rewrite chunks_step by discriminate.
  intros [<-|I].
  - split.
    + pose proof BUFSZ_pos. destruct BUFSZ; [lia|discriminate].
    + split; [rewrite firstn_length; lia|]. intros x Hx. rewrite <- (firstn_skipn BUFSZ (a :: l)). apply in_or_app. auto.
  - apply IH in I. destruct I as (A & B & C). split; [assumption|]. split; [assumption|].
    intros x Hx. rewrite <- (firstn_skipn BUFSZ (a :: l)). apply in_or_app. right. apply C. assumption.
Qed.

Lemma enc_block_decode : forall z d rest k, d <> [] -> (length d <= BUFSZ)%nat -> bytes_ok d ->
  (length (enc_block z d ++ rest) <= k)%nat ->
  unblocks z (S k) (enc_block z d ++ rest) = d ++ unblocks z k rest.
Proof.
  intros z d rest k N L B K. unfold enc_block.
  assert (ZD : 0 < zlen d <= 32768).
  { unfold zlen. pose proof BUFSZ_val. destruct d; [congruence|]. cbn [length] in *. lia. }
  destruct (Z.ltb_spec (zlen (zc z d)) (zlen d)) as [LT|GE].
  - pose proof (zlen_nonneg (zc z d)).
    cbn [app unblocks].
    replace (zlen (zc z d) / 256 mod 256 * 256 + zlen (zc z d) mod 256) with (zlen (zc z d)).
    2:{ rewrite (Z.mod_small (zlen (zc z d) / 256) 256) by lia. lia. }
    rewrite firstn_zlen_app, skipn_zlen_app.
    change (1 =? 0) with false. cbv iota. rewrite zd_zc by assumption.
    destruct d; [congruence|reflexivity].
  - cbn [app unblocks].
    replace (zlen d / 256 mod 256 * 256 + zlen d mod 256) with (zlen d).
    2:{ rewrite (Z.mod_small (zlen d / 256) 256) by lia. lia. }
    rewrite firstn_zlen_app, skipn_zlen_app.
    change (0 =? 0) with true. cbv iota.
    destruct d; [congruence|reflexivity].
Qed.

Lemma enc_block_length : forall z d, (3 <= length (enc_block z d))%nat.
Proof. intros z d. unfold enc_block. destruct (_ <? _); cbn [length]; lia. Qed.

Lemma unblocks_fuel : forall z k k' l, (length l <= k)%nat -> (length l <= k')%nat ->
  unblocks z k l = unblocks z k' l.
Proof.
  intros z. induction k as [| k IH]; intros [| k'] l H H'.
  - reflexivity.
  - destruct l; [reflexivity|cbn in H; lia].
  - destruct l; [reflexivity|cbn in H'; lia].
  - destruct l as [| t [| b1 [| b2 r]]]; try reflexivity. cbn [unblocks].
    destruct (if t =? 0 then _ else _); [reflexivity|].
    f_equal. apply IH; rewrite skipn_length; cbn [length] in *; lia.
Qed.

(** Reading back what was written, whatever follows. *)
Lemma unphys_phys : forall z comp l rest, bytes_ok l ->
  exists rest', unphys z comp (phys z comp l ++ rest) = l ++ rest'.
Proof.
  intros z [|] l rest B; [|exists rest; reflexivity].
  unfold unphys, phys.
  assert (G : forall cs rest, (forall c, In c cs -> c <> [] /\ (length c <= BUFSZ)%nat /\ bytes_ok c) ->
    unblocks z (length (flat_map (enc_block z) cs ++ rest)) (flat_map (enc_block z) cs ++ rest)
    = concat cs ++ unblocks z (length rest) rest).
  { induction cs as [| c cs IH]; intros rest0 H; [reflexivity|].
    cbn [flat_map concat]. rewrite <- !app_assoc.
    destruct (H c (or_introl eq_refl)) as (H1 & H2 & H3).
    set (tail := flat_map (enc_block z) cs ++ rest0).
    rewrite (unblocks_fuel z _ (S (length (enc_block z c ++ tail)))) by lia.
    rewrite enc_block_decode by (assumption || lia). f_equal.
    unfold tail. rewrite <- IH by (intros; apply H; right; assumption).
    apply unblocks_fuel; rewrite ?app_length; lia. }
  eexists. rewrite G.
  - rewrite chunks_concat by lia. reflexivity.
  - intros c I. apply chunks_ok in I. destruct I as (A & C & D). split; [assumption|]. split; [assumption|].
    apply Forall_forall. intros x Hx. unfold bytes_ok in B. rewrite Forall_forall in B. apply B, D, Hx.
Qed.

Lemma phys_bytes : forall z comp l, bytes_ok l -> bytes_ok (phys z comp l).
Proof.
  intros z [|] l B; [|assumption]. unfold phys, bytes_ok. apply Forall_forall. intros x Hx.
  apply in_flat_map in Hx. destruct Hx as (c & Ic & Hx). apply chunks_ok in Ic.
  destruct Ic as (_ & _ & D).
  assert (Bc : bytes_ok c).
  { apply Forall_forall. intros y Hy. unfold bytes_ok in B. rewrite Forall_forall in B. apply B, D, Hy. }
  assert (forall y, byte_ok (y mod 256)) by (intros y; unfold byte_ok; lia).
  unfold enc_block in Hx. destruct (_ <? _).
  - destruct Hx as [<-|[<-|[<-|Hx]]]; auto; [unfold byte_ok; lia|].
    assert (Z := zc_bytes z c Bc). unfold bytes_ok in Z. rewrite Forall_forall in Z. auto.
  - destruct Hx as [<-|[<-|[<-|Hx]]]; auto; [unfold byte_ok; lia|].
    unfold bytes_ok in Bc. rewrite Forall_forall in Bc. auto.
Qed.

(** A concrete compressor (for the non-vacuity examples): runs of one byte. *)
Definition all_same (x : list Z) : bool :=
  match x with [] => false | a :: r => forallb (fun b => b =? a) r end.
Definition rle_c (x : list Z) : list Z :=
  match x with
  | a :: _ => if all_same x && (zlen x <? 65536) then [1; a; zlen x / 256; zlen x mod 256] else 0 :: x
  | [] => [0]
  end.
Definition rle_d (x : list Z) : list Z :=
  match x with
  | [1; a; b1; b2] => repeat a (Z.to_nat (b1 * 256 + b2))
  | _ :: r => r
  | [] => []
  end.

Lemma rle_c_bytes : forall x, bytes_ok x -> bytes_ok (rle_c x).
Proof.
  intros [| a x] B; unfold rle_c.
  - repeat constructor; unfold byte_ok; lia.
  - destruct (all_same (a :: x) && (zlen (a :: x) <? 65536)) eqn:E.
    + inversion B; subst. pose proof (zlen_nonneg (a :: x)).
      unfold bytes_ok. apply Forall_cons; [unfold byte_ok; lia|]. apply Forall_cons; [assumption|].
      apply Forall_cons; [unfold byte_ok; lia|]. apply Forall_cons; [unfold byte_ok; lia|]. constructor.
    + constructor; [unfold byte_ok; lia|assumption].
Qed.

Lemma rle_d_c : forall x, bytes_ok x -> rle_d (rle_c x) = x.
Proof.
  intros [| a x] B; unfold rle_c; [reflexivity|].
  destruct (all_same (a :: x) && (zlen (a :: x) <? 65536)) eqn:E.
  - apply andb_true_iff in E. destruct E as [E1 E2].
    cbn [rle_d]. replace (zlen (a :: x) / 256 * 256 + zlen (a :: x) mod 256) with (zlen (a :: x)) by lia.
    unfold zlen. rewrite Nat2Z.id. cbn [length repeat]. f_equal.
    cbn [all_same] in E1. clear - E1. induction x as [| b x IH]; [reflexivity|].
    cbn [forallb] in E1. apply andb_true_iff in E1. destruct E1 as [E E1]. apply Z.eqb_eq in E. subst b.
    cbn [length repeat]. f_equal. auto.
  - reflexivity.
Qed.

Definition rle_zlib : zlib := mkZ native rle_c rle_d rle_c_bytes rle_d_c.
