(** * BufStream: TBufferedFileStream, and its refinement of the ideal stream

    src/gdlib/gmsstrm.cpp 594-785.  Simplifications: the operating system never fails
    a read, write or seek; zlib is the oracle of AStream.v; a block header with a
    length above BufferSize (only in a corrupted file, where the C++ overruns its
    buffer) is read as if the buffer were large enough. *)

From Verif Require Import Base AStream.

(** The members of TXFileStream / TBufferedFileStream (gmsstrm.hpp 120-215).  NrLoaded is
    the length of [b_buf], NrWritten the length of [b_pend]; the C++ uses one memory
    block for both.  [b_log] records the physical writes, newest first. *)
Record bstream := mkBS {
  b_file : list Z;
  b_phys : Z;                 (* PhysPosition *)
  b_buf : list Z;             (* BufPtr[0..NrLoaded) *)
  b_nread : nat;              (* NrRead *)
  b_pend : list Z;            (* BufPtr[0..NrWritten) *)
  b_comp : bool;              (* FCompress *)
  b_log : list (Z * list Z)
}.

(** TXFileStream::Write, gmsstrm.cpp 566-580. *)
Definition x_write (bs : list Z) (s : bstream) : bstream :=
  mkBS (pwrite (b_file s) (b_phys s) bs) (b_phys s + zlen bs) (b_buf s) (b_nread s) (b_pend s)
       (b_comp s) ((b_phys s, bs) :: b_log s).

(** TXFileStream::Read, gmsstrm.cpp 550-564. *)
Definition x_read (n : nat) (s : bstream) : list Z * bstream :=
  let d := firstn n (pread (b_file s) (b_phys s)) in
  (d, mkBS (b_file s) (b_phys s + zlen d) (b_buf s) (b_nread s) (b_pend s) (b_comp s) (b_log s)).

(** NrWritten = NrLoaded = NrRead = 0. *)
Definition b_clear (s : bstream) : bstream :=
  mkBS (b_file s) (b_phys s) [] 0 [] (b_comp s) (b_log s).

(** FlushBuffer, gmsstrm.cpp 679-714. *)
Definition b_flush (z : zlib) (s : bstream) : bstream :=
  match b_pend s with
  | [] => s
  | _ =>
    b_clear
      (if negb (b_comp s) then x_write (b_pend s) s
       else
         let c := zc z (b_pend s) in
         if zlen c <? zlen (b_pend s)
         then x_write (1 :: zlen c / 256 mod 256 :: zlen c mod 256 :: c) s
         else x_write (b_pend s)
                (x_write [0; zlen (b_pend s) / 256 mod 256; zlen (b_pend s) mod 256] s))
  end.

(** FillBuffer, gmsstrm.cpp 594-622. *)
Definition b_fill (z : zlib) (s : bstream) : bool * bstream :=
  let '(d, s1) :=
    if negb (b_comp s) then x_read BUFSZ s
    else
      let '(h, s1) := x_read 3 s in
      match h with
      | [t; b1; b2] =>
          let '(d, s2) := x_read (Z.to_nat (b1 * 256 + b2)) s1 in
          (if t =? 0 then d else zd z d, s2)
      | _ => ([], s1)
      end in
  (match d with [] => false | _ => true end,
   mkBS (b_file s1) (b_phys s1) d 0 [] (b_comp s1) (b_log s1)).

(** GetPosition, gmsstrm.cpp 624-629. *)
Definition b_getpos (z : zlib) (s : bstream) : Z * bstream :=
  match b_pend s with
  | [] => (b_phys s - zlen (b_buf s) + Z.of_nat (b_nread s), s)
  | _ => let s1 := if b_comp s then b_flush z s else s in
         (b_phys s1 + zlen (b_pend s1), s1)
  end.

(** The second half of SetPosition, gmsstrm.cpp 638-648. *)
Definition b_seek (p : Z) (s : bstream) : bstream :=
  let start := b_phys s - zlen (b_buf s) in
  if (negb (zlen (b_buf s) =? 0) && negb (b_comp s) && (start <=? p) && (p <? b_phys s))%bool
  then mkBS (b_file s) (b_phys s) (b_buf s) (Z.to_nat (p - start)) (b_pend s) (b_comp s) (b_log s)
  else mkBS (b_file s) p [] 0 (b_pend s) (b_comp s) (b_log s).

(** SetPosition, gmsstrm.cpp 631-649. *)
Definition b_setpos (z : zlib) (p : Z) (s : bstream) : bstream :=
  match b_pend s with
  | [] => b_seek p s
  | _ => if ((p =? b_phys s + zlen (b_pend s)) && negb (b_comp s))%bool then s
         else b_seek p (b_flush z s)
  end.

(** The copy loop of Read, gmsstrm.cpp 725-735. *)
Fixpoint b_read_loop (z : zlib) (fuel : nat) (n : nat) (s : bstream) : list Z * bstream :=
  match fuel with
  | O => ([], s)
  | S k =>
    match n with
    | O => ([], s)
    | _ =>
      let '(ok, s1) := if (length (b_buf s) <=? b_nread s)%nat then b_fill z s else (true, s) in
      if ok then
        let nb := Nat.min n (length (b_buf s1) - b_nread s1) in
        let d := firstn nb (skipn (b_nread s1) (b_buf s1)) in
        let s2 := mkBS (b_file s1) (b_phys s1) (b_buf s1) (b_nread s1 + nb) (b_pend s1) (b_comp s1) (b_log s1) in
        let '(d', s3) := b_read_loop z k (n - nb) s2 in
        (d ++ d', s3)
      else ([], s1)
    end
  end.

(** Read, gmsstrm.cpp 716-737. *)
Definition b_read (z : zlib) (n : nat) (s : bstream) : list Z * bstream :=
  let s := b_flush z s in
  if (n <=? length (b_buf s) - b_nread s)%nat
  then (firstn n (skipn (b_nread s) (b_buf s)),
        mkBS (b_file s) (b_phys s) (b_buf s) (b_nread s + n) (b_pend s) (b_comp s) (b_log s))
  else b_read_loop z n n s.

(** Append to the buffer. *)
Definition b_append (bs : list Z) (s : bstream) : bstream :=
  mkBS (b_file s) (b_phys s) (b_buf s) (b_nread s) (b_pend s ++ bs) (b_comp s) (b_log s).

(** The copy loop of Write, gmsstrm.cpp 759-770. *)
Fixpoint b_write_loop (z : zlib) (fuel : nat) (bs : list Z) (s : bstream) : bstream :=
  match fuel with
  | O => s
  | S k =>
    match bs with
    | [] => s
    | _ =>
      let nb := Nat.min (length bs) (BUFSZ - length (b_pend s)) in
      let s1 := b_append (firstn nb bs) s in
      let s2 := if (BUFSZ <=? length (b_pend s1))%nat then b_flush z s1 else s1 in
      b_write_loop z k (skipn nb bs) s2
    end
  end.

(** Write, gmsstrm.cpp 746-772. *)
Definition b_write (z : zlib) (bs : list Z) (s : bstream) : bstream :=
  let s := match b_buf s with
           | [] => s
           | _ => mkBS (b_file s) (b_phys s - zlen (b_buf s) + Z.of_nat (b_nread s)) [] 0
                       (b_pend s) (b_comp s) (b_log s)
           end in
  if (length bs <=? BUFSZ - length (b_pend s))%nat then b_append bs s
  else b_write_loop z (S (length bs)) bs s.

(** SetCompression, gmsstrm.cpp 779-785. *)
Definition b_setcomp (z : zlib) (v : bool) (s : bstream) : bstream :=
  let s := if b_comp s || v then b_flush z s else s in
  if Bool.eqb (b_comp s) v then s
  else mkBS (b_file s) (b_phys s) [] 0 (b_pend s) v (b_log s).

(** The file after destruction, gmsstrm.cpp 672-677. *)
Definition b_final (z : zlib) (s : bstream) : list Z := b_file (b_flush z s).

(** A stream on an existing file. *)
Definition b_open (f : list Z) : bstream := mkBS f 0 [] 0 [] false [].
Definition as_open (f : list Z) : astream := mkAS f 0 false (AIdle true).

(** ** Operations *)

Inductive sop :=
| OSetPos (p : Z) | OGetPos | OSetComp (c : bool) | OWrite (bs : list Z) | ORead (n : nat).

Inductive sres := RUnit | RPos (p : Z) | RData (d : list Z).

Definition astep (z : zlib) (o : sop) (s : astream) : option (sres * astream) :=
  match o with
  | OSetPos p => if p <? 0 then None else Some (RUnit, as_setpos z p s)
  | OGetPos => match as_getpos z s with Some (p, s') => Some (RPos p, s') | None => None end
  | OSetComp c => Some (RUnit, as_setcomp z c s)
  | OWrite bs => match as_write bs s with Some s' => Some (RUnit, s') | None => None end
  | ORead n => let s1 := as_flush z s in
               match as_read z n s1 with Some (d, s') => Some (RData d, s') | None => None end
  end.

Definition bstep (z : zlib) (o : sop) (s : bstream) : sres * bstream :=
  match o with
  | OSetPos p => (RUnit, b_setpos z p s)
  | OGetPos => let '(p, s') := b_getpos z s in (RPos p, s')
  | OSetComp c => (RUnit, b_setcomp z c s)
  | OWrite bs => (RUnit, b_write z bs s)
  | ORead n => let '(d, s') := b_read z n s in (RData d, s')
  end.

Fixpoint aruns (z : zlib) (os : list sop) (s : astream) : option (list sres * astream) :=
  match os with
  | [] => Some ([], s)
  | o :: os => match astep z o s with
               | Some (r, s1) => match aruns z os s1 with
                                 | Some (rs, s2) => Some (r :: rs, s2)
                                 | None => None
                                 end
               | None => None
               end
  end.

Fixpoint bruns (z : zlib) (os : list sop) (s : bstream) : list sres * bstream :=
  match os with
  | [] => ([], s)
  | o :: os => let '(r, s1) := bstep z o s in
               let '(rs, s2) := bruns z os s1 in (r :: rs, s2)
  end.

(** ** The simulation relation *)

Definition b_inv (c : bstream) : Prop :=
  0 <= b_phys c /\ (b_nread c <= length (b_buf c))%nat /\ (length (b_pend c) <= BUFSZ)%nat
  /\ (b_buf c = [] \/ b_pend c = [])
  /\ (b_comp c = false ->
        0 <= b_phys c - zlen (b_buf c)
        /\ pread (b_file c) (b_phys c - zlen (b_buf c)) = b_buf c ++ pread (b_file c) (b_phys c)).

Definition b_at (c : bstream) : Z := b_phys c - zlen (b_buf c) + Z.of_nat (b_nread c).

Definition srel (z : zlib) (c : bstream) (a : astream) : Prop :=
  b_inv c /\ b_comp c = as_comp a /\ 0 <= as_pos a /\
  match as_mode a with
  | AIdle clean =>
      (b_pend c = [] /\ b_file c = as_file a /\ b_at c = as_pos a
       /\ (b_comp c = true -> b_buf c = []) /\ (clean = true -> b_buf c = []))
      \/ (b_comp c = false /\ b_pend c <> [] /\ pwrite (b_file c) (b_phys c) (b_pend c) = as_file a
          /\ b_phys c + zlen (b_pend c) = as_pos a)
  | AWr ap =>
      b_buf c = [] /\
      if b_comp c
      then exists fl m, ap = fl ++ b_pend c /\ length fl = (m * BUFSZ)%nat
             /\ b_file c = pwrite (as_file a) (as_pos a) (phys z true fl)
             /\ b_phys c = as_pos a + zlen (phys z true fl)
      else pwrite (b_file c) (b_phys c) (b_pend c) = pwrite (as_file a) (as_pos a) ap
           /\ b_phys c + zlen (b_pend c) = as_pos a + zlen ap
  | ARd v =>
      b_pend c = [] /\ b_file c = as_file a
      /\ (if b_comp c
          then v = skipn (b_nread c) (b_buf c) ++ unphys z true (pread (b_file c) (b_phys c))
          else v = pread (b_file c) (as_pos a) /\ b_at c = as_pos a)
  | ALost => b_pend c = [] /\ b_file c = as_file a /\ b_buf c = []
  end.

(** *** Flushing *)

Lemma pread_0_app : forall f p, 0 <= p -> pread f p = skipn (Z.to_nat p) f.
Proof. reflexivity. Qed.

Lemma b_inv_clear : forall cm f p l, 0 <= p -> b_inv (mkBS f p [] 0 [] cm l).
Proof.
  intros cm f p l P. unfold b_inv; cbn. split; [assumption|]. split; [lia|]. split; [lia|].
  split; [auto|]. intros _. unfold zlen; cbn. rewrite Z.sub_0_r. split; [assumption|reflexivity].
Qed.

(** What a flush does, in either mode. *)
Lemma b_flush_spec : forall z c, b_pend c <> [] -> 0 <= b_phys c ->
  b_file (b_flush z c) = pwrite (b_file c) (b_phys c)
      (if b_comp c then enc_block z (b_pend c) else b_pend c)
  /\ b_phys (b_flush z c) = b_phys c + zlen (if b_comp c then enc_block z (b_pend c) else b_pend c)
  /\ b_buf (b_flush z c) = [] /\ b_nread (b_flush z c) = O /\ b_pend (b_flush z c) = []
  /\ b_comp (b_flush z c) = b_comp c.
Proof.
  intros z c N P. unfold b_flush. destruct (b_pend c) as [| x p] eqn:E; [congruence|].
  destruct (b_comp c) eqn:C; cbn [negb].
  - unfold enc_block. destruct (Z.ltb_spec (zlen (zc z (x :: p))) (zlen (x :: p))).
    + cbn. rewrite C. auto 10.
    + unfold b_clear, x_write. cbn [b_file b_phys b_buf b_nread b_pend b_comp].
      split; [|split; [|rewrite C; auto]].
      * rewrite pwrite_pwrite by lia. reflexivity.
      * rewrite <- Z.add_assoc, <- zlen_app. reflexivity.
  - cbn. rewrite C. auto 10.
Qed.

Lemma b_flush_nil : forall z c, b_pend c = [] -> b_flush z c = c.
Proof. intros z c E. unfold b_flush. rewrite E. reflexivity. Qed.

Lemma b_flush_inv : forall z c, b_inv c -> b_inv (b_flush z c).
Proof.
  intros z c I. destruct (b_pend c) as [| x p] eqn:E.
  - rewrite b_flush_nil; assumption.
  - destruct I as (P & _). destruct (b_flush_spec z c) as (F & Ph & B & R & Pe & Co); [congruence|assumption|].
    unfold b_inv. rewrite B, R, Pe. cbn [length].
    pose proof (zlen_nonneg (if b_comp c then enc_block z (b_pend c) else b_pend c)).
    split; [lia|]. split; [lia|]. split; [lia|]. split; [auto|].
    intros _. unfold zlen; cbn [length]. rewrite Z.sub_0_r. split; [lia|reflexivity].
Qed.

(** Splitting logical data at a block boundary. *)
Lemma chunks_app_mult : forall m k fl p, length fl = (m * BUFSZ)%nat -> (length (fl ++ p) <= k)%nat ->
  chunks k (fl ++ p) = chunks (length fl) fl ++ chunks (length p) p.
Proof.
  induction m as [| m IH]; intros k fl p L K.
  - destruct fl; [|cbn in L; lia]. cbn [app length chunks]. apply chunks_fuel; [exact K|lia].
  - pose proof BUFSZ_pos as BP.
    assert (LB : (BUFSZ <= length fl)%nat) by lia.
    assert (fl <> []) by (destruct fl; [cbn in LB; lia|discriminate]).
    assert (fl ++ p <> []) by (destruct fl; [congruence|discriminate]).
    destruct k as [| k].
    { rewrite app_length in K. lia. }
    rewrite chunks_step by assumption.
    rewrite (chunks_fuel (length fl) (S (length fl)) fl) by lia. rewrite chunks_step by assumption.
    rewrite <- app_comm_cons. f_equal.
    + rewrite firstn_app. replace (BUFSZ - length fl)%nat with O by lia. cbn [firstn]. apply app_nil_r.
    + rewrite skipn_app. replace (BUFSZ - length fl)%nat with O by lia. cbn [skipn].
      rewrite (IH k (skipn BUFSZ fl) p).
      * f_equal. apply chunks_fuel; rewrite ?skipn_length; lia.
      * rewrite skipn_length. lia.
      * rewrite app_length, skipn_length in *. lia.
Qed.

Lemma phys_app_mult : forall z m fl p, length fl = (m * BUFSZ)%nat ->
  phys z true (fl ++ p) = phys z true fl ++ phys z true p.
Proof.
  intros z m fl p L. unfold phys. rewrite (chunks_app_mult m _ fl p L) by lia. apply flat_map_app.
Qed.

Lemma phys_one : forall z p, p <> [] -> (length p <= BUFSZ)%nat -> phys z true p = enc_block z p.
Proof.
  intros z p N L. unfold phys. destruct p as [| x p]; [congruence|].
  cbn [length]. rewrite chunks_step by discriminate.
  rewrite firstn_all2 by exact L. rewrite skipn_all2 by exact L. rewrite chunks_nil.
  cbn [flat_map]. apply app_nil_r.
Qed.

(** Flushing the real buffer corresponds to flushing the ideal stream. *)
Lemma flush_sim : forall z c a, srel z c a -> srel z (b_flush z c) (as_flush z a).
Proof.
  intros z c a (I & C & P & M). pose proof (b_flush_inv z c I) as I'.
  unfold as_flush. destruct (as_mode a) as [clean|ap|v|] eqn:EM.
  - destruct M as [(M1 & M2 & M3 & M4 & M5)|(M1 & M2 & M3 & M4)].
    + rewrite b_flush_nil by assumption. unfold srel. rewrite EM. auto 10.
    + destruct I as (IP & _). destruct (b_flush_spec z c M2 IP) as (F & Ph & B & R & Pe & Co).
      unfold srel. rewrite EM. split; [assumption|]. split; [congruence|]. split; [assumption|].
      left. rewrite M1 in *. unfold b_at. rewrite F, Ph, B, R, Pe, M3.
      unfold zlen at 2; cbn [length]. split; [reflexivity|]. split; [reflexivity|]. split; [lia|]. auto.
  - destruct M as (MB & M). unfold srel. cbn [as_mode as_comp as_pos as_file].
    split; [assumption|]. destruct (b_pend c) as [| x p] eqn:EP.
    + rewrite b_flush_nil by assumption. split; [assumption|].
      pose proof (zlen_nonneg (phys z (as_comp a) ap)).
      split; [lia|]. left. unfold b_at. rewrite MB, EP. unfold zlen at 1; cbn [length].
      destruct I as (IP & IN & _). rewrite MB in IN. cbn in IN. replace (b_nread c) with O by lia.
      rewrite <- C. destruct (b_comp c).
      * destruct M as (fl & m & M1 & M2 & M3 & M4). rewrite app_nil_r in M1. subst ap.
        split; [reflexivity|]. split; [assumption|]. split; [lia|auto].
      * cbn [phys] in *. destruct M as (M1 & M2). cbn [pwrite] in M1. unfold phys.
        unfold zlen in M2 at 1. cbn [length] in M2.
        split; [reflexivity|]. split; [assumption|]. split; [lia|auto].
    + destruct I as (IP & _ & IL & _). destruct (b_flush_spec z c) as (F & Ph & B & R & Pe & Co); [congruence|assumption|].
      split; [congruence|]. pose proof (zlen_nonneg (phys z (as_comp a) ap)). split; [lia|].
      left. unfold b_at. rewrite F, Ph, B, R, Pe. unfold zlen at 2; cbn [length]. rewrite EP in *.
      rewrite <- C. destruct (b_comp c).
      * destruct M as (fl & m & M1 & M2 & M3 & M4). subst ap.
        rewrite (phys_app_mult z m) by assumption.
        rewrite (phys_one z (x :: p)) by (assumption || discriminate).
        rewrite M3, M4. rewrite pwrite_pwrite by assumption. rewrite zlen_app.
        split; [reflexivity|]. split; [reflexivity|]. split; [lia|auto].
      * destruct M as (M1 & M2). unfold phys. rewrite M1.
        split; [reflexivity|]. split; [reflexivity|]. split; [lia|auto].
  - destruct M as (M1 & M2). rewrite b_flush_nil by assumption. unfold srel. rewrite EM. auto 10.
  - destruct M as (M1 & M2). rewrite b_flush_nil by assumption. unfold srel. rewrite EM. auto 10.
Qed.

(** After a flush the ideal stream is never in writing mode. *)
Lemma as_flush_mode : forall z a, match as_mode (as_flush z a) with AWr _ => False | _ => True end.
Proof. intros z a. unfold as_flush. destruct (as_mode a) eqn:E; cbn; rewrite ?E; exact I. Qed.

(** *** SetPosition *)

Lemma skipn_pread : forall n f p, 0 <= p -> skipn n (pread f p) = pread f (p + Z.of_nat n).
Proof.
  intros n f p P. unfold pread. rewrite Z2Nat.inj_add by lia. rewrite Nat2Z.id.
  generalize (Z.to_nat p). intros q. revert q f. induction q as [| q IH]; intros f; [reflexivity|].
  destruct f as [| x f]; [rewrite !skipn_nil; reflexivity|]. cbn [skipn Nat.add]. apply IH.
Qed.

(** Seeking with nothing pending. *)
Lemma seek_sim : forall z c f cl p, 0 <= p -> b_inv c -> b_pend c = [] -> b_file c = f ->
  (cl = true -> b_comp c = true \/ b_buf c = []) ->
  srel z (b_seek p c) (mkAS f p (b_comp c) (AIdle cl)).
Proof.
  intros z c f cl p P I E F CL. destruct I as (I1 & I2 & I3 & I4 & I5).
  unfold b_seek. destruct (negb (zlen (b_buf c) =? 0) && negb (b_comp c)
    && (b_phys c - zlen (b_buf c) <=? p) && (p <? b_phys c))%bool eqn:B.
  - apply andb_true_iff in B. destruct B as [B B4]. apply andb_true_iff in B. destruct B as [B B3].
    apply andb_true_iff in B. destruct B as [B1 B2]. apply negb_true_iff in B1, B2.
    apply Z.eqb_neq in B1. apply Z.leb_le in B3. apply Z.ltb_lt in B4.
    unfold srel. cbn [as_mode as_comp as_pos as_file b_comp b_pend b_file b_buf].
    split.
    { unfold b_inv. cbn [b_phys b_nread b_buf b_pend b_comp b_file]. unfold zlen in *.
      split; [assumption|]. split; [lia|]. auto. }
    split; [reflexivity|]. split; [assumption|]. left. unfold b_at. cbn [b_phys b_nread b_buf].
    split; [assumption|]. split; [assumption|]. split; [lia|]. split; [congruence|].
    intros Hc. destruct (CL Hc); [congruence|]. rewrite H in B1. exfalso. apply B1. reflexivity.
  - unfold srel. cbn [as_mode as_comp as_pos as_file b_comp b_pend b_file b_buf].
    split.
    { unfold b_inv. cbn [b_phys b_nread b_buf b_pend b_comp b_file]. unfold zlen; cbn [length].
      rewrite E. cbn [length]. rewrite Z.sub_0_r. split; [assumption|]. split; [lia|]. split; [lia|].
      split; [auto|]. intros _. split; [assumption|reflexivity]. }
    split; [reflexivity|]. split; [assumption|]. left. unfold b_at. cbn [b_phys b_nread b_buf].
    unfold zlen; cbn [length]. split; [assumption|]. split; [assumption|]. split; [lia|auto].
Qed.

Lemma setpos_sim : forall z c a p, 0 <= p -> srel z c a -> srel z (b_setpos z p c) (as_setpos z p a).
Proof.
  intros z c a p P H. pose proof (flush_sim z c a H) as HF. unfold b_setpos.
  destruct (b_pend c) as [| x q] eqn:E.
  - rewrite b_flush_nil in HF by assumption. unfold as_setpos.
    pose proof (as_flush_mode z a) as FM.
    destruct HF as (I & C & P' & M). rewrite <- C.
    destruct (as_mode (as_flush z a)) as [clean|ap|v|] eqn:EM; [| destruct FM | |].
    + destruct M as [(M1 & M2 & M3 & M4 & M5)|(M1 & M2 & M3 & M4)]; [|congruence].
      apply seek_sim; try assumption. intros Hc. apply orb_true_iff in Hc.
      assert (as_comp a = b_comp c) by (destruct H as (_ & ? & _); congruence).
      destruct Hc; [right; auto|left; congruence].
    + destruct M as (M1 & M2 & M3). apply seek_sim; try assumption.
      intros Hc. left. destruct H as (_ & ? & _). congruence.
    + destruct M as (M1 & M2 & M3). apply seek_sim; try assumption. discriminate.
  - destruct ((p =? b_phys c + zlen (x :: q)) && negb (b_comp c))%bool eqn:B.
    + apply andb_true_iff in B. destruct B as [B1 B2]. apply Z.eqb_eq in B1. apply negb_true_iff in B2.
      destruct H as (I & C & P' & M). unfold as_setpos, as_flush.
      destruct (as_mode a) as [clean|ap|v|] eqn:EM.
      * rewrite EM. unfold srel. cbn [as_mode as_comp as_pos as_file].
        split; [assumption|]. split; [assumption|]. split; [assumption|]. right.
        destruct M as [(M1 & M2)|(M1 & M2 & M3 & M4)]; [congruence|].
        split; [assumption|]. split; [congruence|]. split; [assumption|]. rewrite E. symmetry. assumption.
      * unfold srel. cbn [as_mode as_comp as_pos as_file].
        split; [assumption|]. split; [assumption|]. split; [assumption|]. right.
        destruct M as (M0 & M). rewrite B2 in M. destruct M as (M1 & M2).
        split; [assumption|]. split; [congruence|]. rewrite <- C, B2. unfold phys.
        split; [assumption|]. rewrite E. symmetry. assumption.
      * destruct M. congruence.
      * destruct M. congruence.
    + clear B. pose proof H as H0. destruct H as (I & C & P' & M). destruct I as (IP & _).
      destruct (b_flush_spec z c) as (F & Ph & Bf & R & Pe & Co); [congruence|assumption|].
      unfold as_setpos. pose proof (as_flush_mode z a) as FM.
      destruct HF as (I & C' & P'' & M'). rewrite <- C'.
      destruct (as_mode (as_flush z a)) as [clean|ap|v|] eqn:EM; [| destruct FM | |].
      * destruct M' as [(M1 & M2 & M3 & M4 & M5)|(M1 & M2 & M3 & M4)]; [|congruence].
        apply seek_sim; try assumption. auto.
      * destruct M' as (M1 & M2 & M3). apply seek_sim; try assumption. auto.
      * destruct M' as (M1 & M2 & M3). apply seek_sim; try assumption. auto.
Qed.

(** *** GetPosition *)

Lemma getpos_sim : forall z c a p a', srel z c a -> as_getpos z a = Some (p, a') ->
  fst (b_getpos z c) = p /\ srel z (snd (b_getpos z c)) a'.
Proof.
  intros z c a p a' H G. pose proof (flush_sim z c a H) as HF. pose proof H as H0.
  destruct H as (I & C & P & M). unfold as_getpos in G. unfold b_getpos.
  destruct (as_mode a) as [clean|ap|v|] eqn:EM.
  - injection G as <- <-. destruct M as [(M1 & M2 & M3 & M4 & M5)|(M1 & M2 & M3 & M4)].
    + rewrite M1. cbn [fst snd]. split; assumption.
    + destruct (b_pend c) eqn:E; [congruence|]. rewrite M1. cbn [fst snd]. rewrite E. split; assumption.
  - destruct M as (MB & M). rewrite <- C in G. destruct (b_comp c) eqn:EC.
    + injection G as <- <-. destruct (b_pend c) as [| x q] eqn:E.
      * rewrite b_flush_nil in HF by assumption. cbn [fst snd]. split; [|assumption].
        destruct M as (fl & m & M1 & M2 & M3 & M4). rewrite app_nil_r in M1. subst ap.
        rewrite MB. unfold zlen at 1; cbn [length]. destruct I as (_ & IN & _). rewrite MB in IN; cbn in IN.
        unfold as_flush. rewrite EM, <- C. cbn [as_pos]. lia.
      * cbn [fst snd]. split; [|assumption].
        destruct I as (IP & _ & IL & _). destruct (b_flush_spec z c) as (F & Ph & B & R & Pe & Co); [congruence|assumption|].
        rewrite Ph, Pe, EC, E. unfold zlen at 2; cbn [length].
        destruct M as (fl & m & M1 & M2 & M3 & M4). unfold as_flush. rewrite EM, <- C. cbn [as_pos].
        subst ap. rewrite (phys_app_mult z m) by assumption.
        rewrite (phys_one z (x :: q)); [|discriminate|rewrite <- E; assumption].
        rewrite zlen_app. lia.
    + injection G as <- <-. destruct M as (M1 & M2). destruct (b_pend c) as [| x q] eqn:E.
      * cbn [fst snd]. split; [|assumption]. rewrite MB. unfold zlen at 1; cbn [length].
        destruct I as (_ & IN & _). rewrite MB in IN; cbn in IN. unfold zlen in M2 at 1; cbn [length] in M2. lia.
      * cbn [fst snd]. split; assumption.
  - rewrite <- C in G. destruct (b_comp c) eqn:EC; [discriminate|]. injection G as <- <-.
    destruct M as (M1 & M2 & M3 & M4). rewrite M1. cbn [fst snd]. split; assumption.
  - discriminate.
Qed.

(** *** SetCompression *)

Lemma setcomp_sim : forall z c a v, srel z c a -> srel z (b_setcomp z v c) (as_setcomp z v a).
Proof.
  intros z c a v H. unfold b_setcomp, as_setcomp.
  assert (CA : b_comp c = as_comp a) by (destruct H as (_ & ? & _); assumption).
  rewrite <- CA.
  assert (G : srel z (if b_comp c || v then b_flush z c else c) (if b_comp c || v then as_flush z a else a)).
  { destruct (b_comp c || v); [apply flush_sim|]; assumption. }
  destruct (b_comp c || v) eqn:EV.
  - pose proof (as_flush_mode z a) as FM.
    assert (CF : b_comp (b_flush z c) = as_comp (as_flush z a)) by (destruct G as (_ & ? & _); assumption).
    rewrite <- CF. destruct (Bool.eqb (b_comp (b_flush z c)) v) eqn:Q; [assumption|].
    destruct G as (I & C & P & M). unfold srel. cbn [as_mode as_comp as_pos as_file b_comp b_pend b_file b_buf].
    assert (NP : b_pend (b_flush z c) = []).
    { destruct (b_pend c) eqn:E; [rewrite b_flush_nil; assumption|].
      destruct H as ((IP & _) & _). destruct (b_flush_spec z c) as (_ & _ & _ & _ & ? & _); [congruence|assumption|assumption]. }
    rewrite NP in *.
    split.
    { unfold b_inv. cbn [b_phys b_nread b_buf b_pend b_comp b_file length]. destruct I as (IP & _).
      unfold zlen; cbn [length]. rewrite Z.sub_0_r. split; [assumption|]. split; [lia|]. split; [lia|]. split; [auto|].
      intros _. split; [assumption|reflexivity]. }
    split; [reflexivity|]. split; [assumption|].
    destruct (as_mode (as_flush z a)) as [clean|ap|w|] eqn:EM; [| destruct FM | |].
    + destruct M as [(M1 & M2 & M3 & M4 & M5)|(M1 & M2 & M3 & M4)]; [|congruence].
      destruct clean.
      * left. split; [reflexivity|]. split; [assumption|]. unfold b_at in *. cbn [b_phys b_nread b_buf].
        specialize (M5 eq_refl). rewrite M5 in M3. destruct I as (_ & IN & _). rewrite M5 in IN. cbn in IN.
        unfold zlen in *; cbn [length] in *. split; [lia|auto].
      * auto.
    + destruct M as (M1 & M2 & M3). auto.
    + destruct M as (M1 & M2 & M3). auto.
  - apply orb_false_iff in EV. destruct EV as [EC EV]. rewrite CA in *. rewrite EC, EV. cbn [Bool.eqb].
    assumption.
Qed.

(** *** Write *)

(** Nothing read ahead, and the ideal stream is writing. *)
Lemma append_sim : forall z c a ap bs,
  srel z c (mkAS (as_file a) (as_pos a) (as_comp a) (AWr ap)) ->
  (length bs <= BUFSZ - length (b_pend c))%nat ->
  srel z (b_append bs c) (mkAS (as_file a) (as_pos a) (as_comp a) (AWr (ap ++ bs))).
Proof.
  intros z c a ap bs (I & C & P & M) L. cbn [as_mode as_comp as_pos as_file] in *.
  destruct M as (MB & M). destruct I as (I1 & I2 & I3 & I4 & I5).
  unfold srel, b_append. cbn [as_mode as_comp as_pos as_file b_comp b_pend b_file b_buf b_phys b_nread].
  split.
  { unfold b_inv. cbn [b_phys b_nread b_buf b_pend b_comp b_file].
    split; [assumption|]. split; [assumption|]. split; [rewrite app_length; lia|]. split; [auto|assumption]. }
  split; [assumption|]. split; [assumption|]. split; [assumption|].
  destruct (b_comp c).
  - destruct M as (fl & m & M1 & M2 & M3 & M4). exists fl, m. split; [subst ap; symmetry; apply app_assoc|auto].
  - destruct M as (M1 & M2). rewrite <- pwrite_pwrite by assumption. rewrite M1, M2.
    rewrite pwrite_pwrite by assumption. rewrite !zlen_app. split; [reflexivity|lia].
Qed.

(** Flushing a full buffer in the middle of a write. *)
Lemma full_flush_sim : forall z c a ap,
  srel z c (mkAS (as_file a) (as_pos a) (as_comp a) (AWr ap)) ->
  (BUFSZ <= length (b_pend c))%nat ->
  srel z (b_flush z c) (mkAS (as_file a) (as_pos a) (as_comp a) (AWr ap)).
Proof.
  intros z c a ap (I & C & P & M) L. pose proof (b_flush_inv z c I) as I'.
  cbn [as_mode as_comp as_pos as_file] in *.
  destruct M as (MB & M). destruct I as (I1 & I2 & I3 & I4 & I5). pose proof BUFSZ_pos as BP.
  assert (NE : b_pend c <> []) by (destruct (b_pend c); [cbn in L; lia|discriminate]).
  destruct (b_flush_spec z c NE I1) as (F & Ph & B & R & Pe & Co).
  unfold srel. cbn [as_mode as_comp as_pos as_file].
  split; [assumption|]. split; [congruence|]. split; [assumption|]. split; [assumption|].
  rewrite Co, Pe, F, Ph. destruct (b_comp c).
  - destruct M as (fl & m & M1 & M2 & M3 & M4). exists (fl ++ b_pend c), (S m).
    split; [rewrite app_nil_r; assumption|]. split; [rewrite app_length; lia|].
    rewrite (phys_app_mult z m) by assumption. rewrite (phys_one z (b_pend c)) by (assumption || lia).
    rewrite M3, M4. rewrite pwrite_pwrite by assumption. rewrite zlen_app. split; [reflexivity|lia].
  - destruct M as (M1 & M2). cbn [pwrite]. rewrite M1. unfold zlen at 2; cbn [length]. split; [reflexivity|lia].
Qed.

Lemma write_loop_sim : forall z k bs c a ap,
  srel z c (mkAS (as_file a) (as_pos a) (as_comp a) (AWr ap)) ->
  (length bs + (if (BUFSZ <=? length (b_pend c))%nat then 1 else 0) <= k)%nat ->
  srel z (b_write_loop z k bs c) (mkAS (as_file a) (as_pos a) (as_comp a) (AWr (ap ++ bs))).
Proof.
  intros z. induction k as [| k IH]; intros bs c a ap H K.
  - destruct bs; [|cbn in K; lia]. cbn [b_write_loop]. rewrite app_nil_r. assumption.
  - cbn [b_write_loop]. destruct bs as [| b bs].
    + rewrite app_nil_r. assumption.
    + set (B := b :: bs) in *.
      set (nb := Nat.min (length B) (BUFSZ - length (b_pend c))).
      assert (IL : (length (b_pend c) <= BUFSZ)%nat) by (destruct H as ((_ & _ & ? & _) & _); assumption).
      assert (LB : (0 < length B)%nat) by (unfold B; cbn; lia).
      assert (L1 : length (firstn nb B) = nb) by (rewrite firstn_length; lia).
      assert (H1 := append_sim z c a ap (firstn nb B) H ltac:(lia)).
      set (c1 := b_append (firstn nb B) c) in *.
      assert (LP : length (b_pend c1) = (length (b_pend c) + nb)%nat).
      { unfold c1, b_append. cbn [b_pend]. rewrite app_length. lia. }
      assert (H2 : srel z (if (BUFSZ <=? length (b_pend c1))%nat then b_flush z c1 else c1)
                     (mkAS (as_file a) (as_pos a) (as_comp a) (AWr (ap ++ firstn nb B)))).
      { destruct (Nat.leb_spec BUFSZ (length (b_pend c1))); [apply full_flush_sim|]; assumption. }
      replace (ap ++ B) with ((ap ++ firstn nb B) ++ skipn nb B)
        by (rewrite <- app_assoc, firstn_skipn; reflexivity).
      apply IH; [assumption|].
      assert (LS : length (skipn nb B) = (length B - nb)%nat) by apply skipn_length.
      pose proof BUFSZ_pos as BP.
      destruct (Nat.leb_spec BUFSZ (length (b_pend c1))) as [FU|NF].
      * assert (Pe : b_pend (b_flush z c1) = []).
        { destruct H1 as ((IP & _) & _).
          destruct (b_flush_spec z c1) as (_ & _ & _ & _ & ? & _); [|assumption|assumption].
          destruct (b_pend c1); [cbn in FU; lia|discriminate]. }
        rewrite Pe. cbn [length].
        destruct (Nat.leb_spec BUFSZ 0); [lia|].
        destruct (Nat.leb_spec BUFSZ (length (b_pend c))); lia.
      * destruct (Nat.leb_spec BUFSZ (length (b_pend c1))); [lia|].
        destruct (Nat.leb_spec BUFSZ (length (b_pend c))); lia.
Qed.

Lemma write_sim : forall z c a bs a', srel z c a -> as_write bs a = Some a' -> srel z (b_write z bs c) a'.
Proof.
  intros z c a bs a' H W. unfold b_write.
  set (c1 := match b_buf c with [] => c | _ => _ end).
  assert (G : exists ap, srel z c1 (mkAS (as_file a) (as_pos a) (as_comp a) (AWr ap))
                /\ a' = mkAS (as_file a) (as_pos a) (as_comp a) (AWr (ap ++ bs))).
  { unfold as_write in W. destruct H as (I & C & P & M). destruct (as_mode a) as [clean|ap|v|] eqn:EM;
      try discriminate W; injection W as <-.
    - exists []. split; [|reflexivity]. destruct M as [(M1 & M2 & M3 & M4 & M5)|(M1 & M2 & M3 & M4)].
      + unfold c1. destruct I as (I1 & I2 & I3 & I4 & I5). unfold srel.
        destruct (b_buf c) as [| x q] eqn:E; cbn [as_mode as_comp as_pos as_file b_comp b_pend b_file b_buf b_phys b_nread].
        * split; [unfold b_inv; rewrite E; auto 10|]. split; [assumption|]. split; [assumption|]. split; [assumption|].
          unfold b_at in M3. rewrite E in M3. unfold zlen in M3; cbn [length] in *. rewrite M1.
          destruct (b_comp c).
          -- exists [], O. split; [reflexivity|]. split; [reflexivity|].
             unfold phys. cbn [length chunks flat_map pwrite]. unfold zlen; cbn [length]. split; [assumption|lia].
          -- cbn [pwrite]. unfold zlen; cbn [length]. split; [assumption|lia].
        * assert (NC : b_comp c = false) by (destruct (b_comp c); [specialize (M4 eq_refl); discriminate|reflexivity]).
          unfold b_at in M3. rewrite E in M3.
          split.
          { unfold b_inv. cbn [b_phys b_nread b_buf b_pend b_comp b_file]. rewrite M3, M1. cbn [length].
            unfold zlen; cbn [length]. rewrite Z.sub_0_r.
            split; [assumption|]. split; [lia|]. split; [lia|]. split; [auto|]. intros _. split; [assumption|reflexivity]. }
          split; [assumption|]. split; [assumption|]. split; [reflexivity|]. rewrite NC, M3, M1.
          cbn [pwrite]. unfold zlen; cbn [length]. split; [assumption|lia].
      + unfold c1. destruct I as (I1 & I2 & I3 & I4 & I5).
        assert (E : b_buf c = []) by (destruct I4; [assumption|congruence]). rewrite E.
        unfold srel. cbn [as_mode as_comp as_pos as_file].
        split; [unfold b_inv; auto 10|]. split; [assumption|]. split; [assumption|]. split; [assumption|].
        rewrite M1. cbn [pwrite]. unfold zlen at 2; cbn [length]. split; [assumption|lia].
    - exists ap. split; [|reflexivity]. destruct M as (MB & M). unfold c1. rewrite MB.
      unfold srel. cbn [as_mode as_comp as_pos as_file]. auto 10. }
  destruct G as (ap & G & ->).
  destruct (Nat.leb_spec (length bs) (BUFSZ - length (b_pend c1))) as [S|L].
  - apply append_sim; assumption.
  - apply write_loop_sim; [assumption|]. destruct (BUFSZ <=? length (b_pend c1))%nat; lia.
Qed.

(** *** Read *)

(** What the concrete stream still has to offer. *)
Definition b_view (z : zlib) (c : bstream) : list Z :=
  skipn (b_nread c) (b_buf c) ++ unphys z (b_comp c) (pread (b_file c) (b_phys c)).

Lemma unphys_true_step : forall z t b1 b2 r,
  unphys z true (t :: b1 :: b2 :: r) =
  let n := Z.to_nat (b1 * 256 + b2) in
  let out := if t =? 0 then firstn n r else zd z (firstn n r) in
  match out with [] => [] | _ => out ++ unphys z true (skipn n r) end.
Proof.
  intros z t b1 b2 r. unfold unphys.
  assert (E : forall k, unblocks z (S k) (t :: b1 :: b2 :: r) =
    let n := Z.to_nat (b1 * 256 + b2) in
    let out := if t =? 0 then firstn n r else zd z (firstn n r) in
    match out with [] => [] | _ => out ++ unblocks z k (skipn n r) end) by reflexivity.
  change (length (t :: b1 :: b2 :: r)) with (S (S (S (length r)))). rewrite E. cbv zeta.
  destruct (if t =? 0 then _ else _); [reflexivity|]. f_equal.
  apply unblocks_fuel; rewrite ?skipn_length; lia.
Qed.

(** Filling the buffer does not change what can be read. *)
Lemma fill_spec : forall z c, b_inv c -> b_pend c = [] -> (length (b_buf c) <= b_nread c)%nat ->
  let '(ok, c1) := b_fill z c in
  b_inv c1 /\ b_pend c1 = [] /\ b_file c1 = b_file c /\ b_comp c1 = b_comp c
  /\ (if ok then b_view z c1 = b_view z c /\ b_buf c1 <> [] /\ b_nread c1 = O
               /\ (b_comp c = false -> b_at c1 = b_at c)
      else b_view z c = []).
Proof.
  intros z c (I1 & I2 & I3 & I4 & I5) E LN. unfold b_fill, b_view.
  rewrite (skipn_all2 (b_buf c)) by assumption.
  assert (NR : Z.of_nat (b_nread c) = zlen (b_buf c)) by (unfold zlen; lia).
  destruct (b_comp c) eqn:C; cbn [negb].
  - unfold x_read. cbn [b_file b_phys b_buf b_nread b_pend b_comp b_log].
    destruct (pread (b_file c) (b_phys c)) as [| t [| b1 [| b2 r]]] eqn:ER; cbn [firstn].
    + cbn. split; [apply b_inv_clear; unfold zlen; cbn; lia|]. auto.
    + cbn. split; [apply b_inv_clear; unfold zlen; cbn; lia|]. auto.
    + cbn. split; [apply b_inv_clear; unfold zlen; cbn; lia|]. auto.
    + cbn [app]. rewrite unphys_true_step. cbv zeta.
      assert (PR : pread (b_file c) (b_phys c + zlen [t; b1; b2]) = r).
      { change (zlen [t; b1; b2]) with (Z.of_nat 3). rewrite <- skipn_pread by assumption. rewrite ER. reflexivity. }
      rewrite !PR. set (n := Z.to_nat (b1 * 256 + b2)).
      assert (PR2 : pread (b_file c) (b_phys c + zlen [t; b1; b2] + zlen (firstn n r)) = skipn n r).
      { unfold zlen at 2. rewrite <- skipn_pread by (pose proof (zlen_nonneg [t; b1; b2]); lia). rewrite PR.
        rewrite firstn_length. destruct (Nat.le_gt_cases n (length r)).
        - rewrite Nat.min_l by assumption. reflexivity.
        - rewrite Nat.min_r by lia. rewrite !skipn_all2 by lia. reflexivity. }
      set (out := if t =? 0 then firstn n r else zd z (firstn n r)).
      pose proof (zlen_nonneg [t; b1; b2]). pose proof (zlen_nonneg (firstn n r)).
      destruct out as [| o out'] eqn:EO; cbn [b_file b_phys b_buf b_nread b_pend b_comp skipn].
      * split; [apply b_inv_clear; lia|]. auto.
      * split.
        { unfold b_inv. cbn [b_phys b_nread b_buf b_pend b_comp b_file]. split; [lia|]. split; [lia|].
          split; [cbn; lia|]. split; [auto|congruence]. }
        split; [reflexivity|]. split; [reflexivity|]. split; [exact C|].
        rewrite C, PR2. split; [reflexivity|]. split; [discriminate|]. split; [reflexivity|congruence].
  - unfold x_read. cbn [b_file b_phys b_buf b_nread b_pend b_comp b_log].
    set (d := firstn BUFSZ (pread (b_file c) (b_phys c))).
    pose proof (zlen_nonneg d).
    assert (PRd : pread (b_file c) (b_phys c + zlen d) = skipn BUFSZ (pread (b_file c) (b_phys c))).
    { unfold zlen. rewrite <- skipn_pread by assumption. unfold d. rewrite firstn_length.
      destruct (Nat.le_gt_cases BUFSZ (length (pread (b_file c) (b_phys c)))).
      - rewrite Nat.min_l by assumption. reflexivity.
      - rewrite Nat.min_r by lia. rewrite !skipn_all2 by lia. reflexivity. }
    assert (INV : b_inv (mkBS (b_file c) (b_phys c + zlen d) d 0 [] false (b_log c))).
    { unfold b_inv. cbn [b_phys b_nread b_buf b_pend b_comp b_file].
      split; [lia|]. split; [lia|]. split; [cbn; lia|]. split; [auto|]. intros _.
      replace (b_phys c + zlen d - zlen d) with (b_phys c) by lia. split; [assumption|].
      rewrite PRd. unfold d. symmetry. apply firstn_skipn. }
    destruct d as [| x d'] eqn:ED; cbn [b_file b_phys b_buf b_nread b_pend b_comp skipn].
    + split; [rewrite C; exact INV|]. rewrite C. split; [reflexivity|]. split; [reflexivity|]. split; [reflexivity|].
      unfold unphys. cbn [app].
      pose proof BUFSZ_pos. unfold d in ED. destruct BUFSZ; [lia|].
      destruct (pread (b_file c) (b_phys c)); [reflexivity|discriminate].
    + split; [rewrite C; exact INV|]. rewrite C. split; [reflexivity|]. split; [reflexivity|]. split; [reflexivity|].
      unfold unphys. rewrite PRd. cbn [app]. rewrite app_comm_cons. rewrite <- ED. unfold d. rewrite firstn_skipn.
      split; [reflexivity|]. split; [fold d; rewrite ED; discriminate|]. split; [reflexivity|].
      intros _. unfold b_at. cbn [b_phys b_buf b_nread]. lia.
Qed.

Lemma read_loop_spec : forall z k n c d c', b_inv c -> b_pend c = [] ->
  b_read_loop z k n c = (d, c') -> (n <= k)%nat -> (n <= length (b_view z c))%nat ->
  d = firstn n (b_view z c) /\ b_inv c' /\ b_pend c' = [] /\ b_file c' = b_file c /\ b_comp c' = b_comp c
  /\ b_view z c' = skipn n (b_view z c)
  /\ (b_comp c = false -> b_at c' = b_at c + Z.of_nat n).
Proof.
  intros z. induction k as [| k IH]; intros n c d c' I E R K L.
  - destruct n; [|lia]. cbn in R. injection R as <- <-. cbn. split; [reflexivity|]. split; [assumption|].
    split; [assumption|]. split; [reflexivity|]. split; [reflexivity|]. split; [reflexivity|]. lia.
  - cbn [b_read_loop] in R. destruct n as [| n].
    { injection R as <- <-. cbn. split; [reflexivity|]. split; [assumption|].
      split; [assumption|]. split; [reflexivity|]. split; [reflexivity|]. split; [reflexivity|]. lia. }
    assert (G : forall ok c1,
      (if (length (b_buf c) <=? b_nread c)%nat then b_fill z c else (true, c)) = (ok, c1) ->
      ok = true /\ b_inv c1 /\ b_pend c1 = [] /\ b_file c1 = b_file c /\ b_comp c1 = b_comp c
      /\ b_view z c1 = b_view z c /\ (b_nread c1 < length (b_buf c1))%nat
      /\ (b_comp c = false -> b_at c1 = b_at c)).
    { intros ok c1 Q. destruct (Nat.leb_spec (length (b_buf c)) (b_nread c)) as [LE|GT].
      - pose proof (fill_spec z c I E LE) as F. rewrite Q in F.
        destruct F as (F1 & F2 & F3 & F4 & F5). destruct ok.
        + destruct F5 as (F5 & F6 & F7 & F8). split; [reflexivity|]. split; [assumption|]. split; [assumption|].
          split; [assumption|]. split; [assumption|]. split; [assumption|]. split; [|assumption].
          rewrite F7. destruct (b_buf c1); [congruence|cbn; lia].
        + rewrite F5 in L. cbn in L. lia.
      - injection Q as <- <-. auto 10. }
    destruct (if (length (b_buf c) <=? b_nread c)%nat then b_fill z c else (true, c)) as [ok c1] eqn:Q.
    destruct (G ok c1 eq_refl) as (-> & G1 & G2 & G3 & G4 & G5 & G6 & G7). clear G.
    set (nb := Nat.min (S n) (length (b_buf c1) - b_nread c1)) in *.
    set (c2 := mkBS (b_file c1) (b_phys c1) (b_buf c1) (b_nread c1 + nb) (b_pend c1) (b_comp c1) (b_log c1)) in *.
    destruct (b_read_loop z k (S n - nb) c2) as [d' c3] eqn:RL. injection R as <- <-.
    assert (V2 : b_view z c2 = skipn nb (b_view z c)).
    { rewrite <- G5. unfold b_view, c2. cbn [b_nread b_buf b_comp b_file b_phys].
      rewrite skipn_app. rewrite skipn_length. replace (nb - (length (b_buf c1) - b_nread c1))%nat with O by lia.
      cbn [skipn]. f_equal.
      assert (SS : forall a b (l : list Z), skipn a (skipn b l) = skipn (b + a) l).
      { intros a0 b0. induction b0 as [| b0 IH0]; intros l; [reflexivity|].
        destruct l; [rewrite !skipn_nil; reflexivity|]. cbn [skipn Nat.add]. apply IH0. }
      symmetry. apply SS. }
    assert (I2 : b_inv c2).
    { destruct G1 as (A1 & A2 & A3 & A4 & A5). unfold b_inv, c2. cbn [b_nread b_buf b_comp b_file b_phys b_pend].
      split; [assumption|]. split; [lia|]. auto. }
    destruct (IH _ _ _ _ I2 G2 RL) as (H1 & H2 & H3 & H4 & H5 & H6 & H7).
    { lia. }
    { rewrite V2, skipn_length. lia. }
    split.
    { rewrite H1, V2. rewrite <- G5.
      replace (firstn (S n) (b_view z c1)) with (firstn (nb + (S n - nb)) (b_view z c1)) by (f_equal; lia).
      rewrite <- (firstn_skipn nb (b_view z c1)) at 2. rewrite firstn_app.
      assert (LN : length (firstn nb (b_view z c1)) = nb).
      { rewrite firstn_length, G5. lia. }
      rewrite LN. rewrite (firstn_all2 (firstn nb (b_view z c1))) by lia.
      replace (nb + (S n - nb) - nb)%nat with (S n - nb)%nat by lia. f_equal.
      unfold b_view. rewrite firstn_app, skipn_length.
      replace (nb - (length (b_buf c1) - b_nread c1))%nat with O by lia. cbn [firstn]. rewrite app_nil_r. reflexivity. }
    split; [assumption|]. split; [assumption|]. split; [rewrite H4; exact G3|].
    split; [rewrite H5; exact G4|]. split.
    { rewrite H6, V2.
      assert (SS : forall a b (l : list Z), skipn a (skipn b l) = skipn (b + a) l).
      { intros a0 b0. induction b0 as [| b0 IH0]; intros l; [reflexivity|].
        destruct l; [rewrite !skipn_nil; reflexivity|]. cbn [skipn Nat.add]. apply IH0. }
      rewrite SS. f_equal. lia. }
    intros NC. rewrite H7 by (unfold c2; cbn; congruence). unfold c2, b_at at 1. cbn [b_phys b_buf b_nread].
    specialize (G7 NC). unfold b_at in G7 at 1. lia.
Qed.

Lemma read_sim : forall z c a n d a', srel z c a -> as_read z n (as_flush z a) = Some (d, a') ->
  fst (b_read z n c) = d /\ srel z (snd (b_read z n c)) a'.
Proof.
  intros z c a n d a' H R. pose proof (flush_sim z c a H) as HF.
  assert (NP : b_pend (b_flush z c) = []).
  { destruct (b_pend c) eqn:E; [rewrite b_flush_nil; assumption|].
    destruct H as ((IP & _) & _). destruct (b_flush_spec z c) as (_ & _ & _ & _ & ? & _); [congruence|assumption|assumption]. }
  unfold b_read. set (c1 := b_flush z c) in *. set (a1 := as_flush z a) in *.
  destruct HF as (I & C & P & M).
  assert (V : exists v, as_view z a1 = Some v /\ v = b_view z c1 /\ b_file c1 = as_file a1
                /\ (b_comp c1 = false -> b_at c1 = as_pos a1 /\ v = pread (b_file c1) (as_pos a1))).
  { pose proof (as_flush_mode z a) as FM. fold a1 in FM. unfold as_view.
    assert (UN : b_comp c1 = false -> b_view z c1 = pread (b_file c1) (b_at c1)).
    { intros NC. unfold b_view. rewrite NC. unfold unphys. destruct I as (I1 & I2 & I3 & I4 & I5).
      destruct (I5 NC) as (J1 & J2). unfold b_at. rewrite <- skipn_pread by assumption. rewrite J2.
      rewrite skipn_app. replace (b_nread c1 - length (b_buf c1))%nat with O by lia. reflexivity. }
    destruct (as_mode a1) as [clean|ap|v|] eqn:EM; [| destruct FM | |].
    - destruct M as [(M1 & M2 & M3 & M4 & M5)|(M1 & M2 & M3 & M4)]; [|congruence].
      eexists. split; [reflexivity|]. rewrite <- C, <- M2, <- M3. split; [|split; [reflexivity|]].
      + destruct (b_comp c1) eqn:EC.
        * specialize (M4 eq_refl). unfold b_view, b_at. rewrite M4, EC.
          destruct I as (_ & IN & _). rewrite M4 in IN. cbn in IN. replace (b_nread c1) with O by lia.
          unfold zlen. cbn [length skipn app].
          replace (b_phys c1 - Z.of_nat 0 + Z.of_nat 0) with (b_phys c1) by lia. reflexivity.
        * rewrite UN by reflexivity. reflexivity.
      + intros NC. rewrite NC. unfold unphys. auto.
    - destruct M as (M1 & M2 & M3). eexists. split; [reflexivity|].
      destruct (b_comp c1) eqn:EC.
      + split; [unfold b_view; rewrite EC; assumption|]. split; [assumption|discriminate].
      + destruct M3 as (M3 & M4). rewrite <- M4 in *. split; [rewrite UN by reflexivity; assumption|].
        split; [assumption|]. auto.
    - unfold as_read, as_view in R. rewrite EM in R. discriminate. }
  destruct V as (v & V1 & V2 & V3 & V4). unfold as_read in R. rewrite V1 in R.
  destruct (Nat.leb_spec n (length v)) as [LE|GT]; [|discriminate]. injection R as <- <-.
  assert (K : forall d' c', (d', c') = (if (n <=? length (b_buf c1) - b_nread c1)%nat
                 then (firstn n (skipn (b_nread c1) (b_buf c1)),
                       mkBS (b_file c1) (b_phys c1) (b_buf c1) (b_nread c1 + n) (b_pend c1) (b_comp c1) (b_log c1))
                 else b_read_loop z n n c1) ->
    d' = firstn n v /\ b_inv c' /\ b_pend c' = [] /\ b_file c' = b_file c1 /\ b_comp c' = b_comp c1
    /\ b_view z c' = skipn n v /\ (b_comp c1 = false -> b_at c' = b_at c1 + Z.of_nat n)).
  { intros d' c' Q. destruct (Nat.leb_spec n (length (b_buf c1) - b_nread c1)) as [S|L].
    - injection Q as -> ->. subst v. unfold b_view. cbn [b_nread b_buf b_comp b_file b_phys b_pend].
      split.
      { rewrite firstn_app, skipn_length. replace (n - (length (b_buf c1) - b_nread c1))%nat with O by lia.
        cbn [firstn]. rewrite app_nil_r. reflexivity. }
      destruct I as (A1 & A2 & A3 & A4 & A5).
      split.
      { unfold b_inv. cbn [b_nread b_buf b_comp b_file b_phys b_pend]. split; [assumption|]. split; [|auto].
        destruct n; lia. }
      split; [assumption|]. split; [reflexivity|]. split; [reflexivity|]. split.
      { rewrite skipn_app, skipn_length. replace (n - (length (b_buf c1) - b_nread c1))%nat with O by lia.
        cbn [skipn]. f_equal.
        assert (SS : forall a b (l : list Z), skipn a (skipn b l) = skipn (b + a) l).
        { intros a0 b0. induction b0 as [| b0 IH0]; intros l; [reflexivity|].
          destruct l; [rewrite !skipn_nil; reflexivity|]. cbn [skipn Nat.add]. apply IH0. }
        rewrite SS. reflexivity. }
      intros _. unfold b_at. cbn [b_nread b_buf b_phys]. lia.
    - subst v. symmetry in Q. eapply read_loop_spec in Q; eauto. }
  destruct (if (n <=? length (b_buf c1) - b_nread c1)%nat then _ else _) as [d' c'].
  destruct (K d' c' eq_refl) as (K1 & K2 & K3 & K4 & K5 & K6 & K7). clear K.
  cbn [fst snd]. split; [assumption|]. unfold srel, as_consume. cbn [as_mode as_comp as_pos as_file].
  split; [assumption|]. split; [congruence|].
  split; [destruct (as_comp a1); lia|]. split; [assumption|]. split; [congruence|].
  rewrite K5. destruct (b_comp c1) eqn:EC.
  - rewrite <- K6. unfold b_view. rewrite K5. reflexivity.
  - rewrite <- C. destruct (V4 eq_refl) as (V5 & V6). split.
    + rewrite K4, V6. apply skipn_pread. assumption.
    + rewrite K7 by reflexivity. lia.
Qed.

(** ** The simulation, for any sequence of operations *)

Theorem step_sim : forall z o c a r a', srel z c a -> astep z o a = Some (r, a') ->
  fst (bstep z o c) = r /\ srel z (snd (bstep z o c)) a'.
Proof.
  intros z o c a r a' H S. destruct o as [p| |v|bs|n]; cbn [astep bstep] in *.
  - destruct (Z.ltb_spec p 0); [discriminate|]. injection S as <- <-. split; [reflexivity|].
    apply setpos_sim; assumption.
  - destruct (as_getpos z a) as [[p a1]|] eqn:G; [|discriminate]. injection S as <- <-.
    destruct (getpos_sim z c a p a1 H G) as [G1 G2]. destruct (b_getpos z c). cbn [fst snd] in *.
    subst. split; [reflexivity|assumption].
  - injection S as <- <-. split; [reflexivity|]. apply setcomp_sim. assumption.
  - destruct (as_write bs a) as [a1|] eqn:W; [|discriminate]. injection S as <- <-.
    split; [reflexivity|]. eapply write_sim; eassumption.
  - destruct (as_read z n (as_flush z a)) as [[d a1]|] eqn:R; [|discriminate]. injection S as <- <-.
    destruct (read_sim z c a n d a1 H R) as [G1 G2]. destruct (b_read z n c). cbn [fst snd] in *.
    subst. split; [reflexivity|assumption].
Qed.

Theorem runs_sim : forall z os c a rs a', srel z c a -> aruns z os a = Some (rs, a') ->
  fst (bruns z os c) = rs /\ srel z (snd (bruns z os c)) a'.
Proof.
  intros z. induction os as [| o os IH]; intros c a rs a' H R; cbn [aruns bruns] in *.
  - injection R as <- <-. auto.
  - destruct (astep z o a) as [[r a1]|] eqn:S; [|discriminate].
    destruct (aruns z os a1) as [[rs1 a2]|] eqn:R1; [|discriminate]. injection R as <- <-.
    destruct (step_sim _ _ _ _ _ _ H S) as [S1 S2]. destruct (bstep z o c) as [r' c1]. cbn [fst snd] in *.
    destruct (IH _ _ _ _ S2 R1) as [I1 I2]. destruct (bruns z os c1) as [rs' c2]. cbn [fst snd] in *.
    subst. auto.
Qed.

Lemma open_sim : forall z f, srel z (b_open f) (as_open f).
Proof.
  intros z f. unfold srel, b_open, as_open. cbn [as_mode as_comp as_pos as_file b_comp].
  split; [apply b_inv_clear; lia|]. split; [reflexivity|]. split; [lia|].
  left. unfold b_at. cbn. auto.
Qed.

Lemma final_sim : forall z c a, srel z c a -> b_final z c = as_final z a.
Proof.
  intros z c a H. pose proof (flush_sim z c a H) as HF. unfold b_final, as_final.
  destruct HF as (I & C & P & M). pose proof (as_flush_mode z a) as FM.
  assert (NP : b_pend (b_flush z c) = []).
  { destruct (b_pend c) eqn:E; [rewrite b_flush_nil; assumption|].
    destruct H as ((IP & _) & _). destruct (b_flush_spec z c) as (_ & _ & _ & _ & ? & _); [congruence|assumption|assumption]. }
  destruct (as_mode (as_flush z a)) as [clean|ap|v|]; [| destruct FM | |].
  - destruct M as [(_ & M2 & _)|(_ & M2 & _)]; [assumption|congruence].
  - tauto.
  - tauto.
Qed.
