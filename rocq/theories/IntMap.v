(** * IntMap: growing integer maps and bit sets

    src/gxfile.cpp 4043-4116 (TIntegerMapping) and src/gdlib/gmsobj.hpp 318-405
    (TBooleanBitArray). *)

From Verif Require Import Base.

(** ** TIntegerMapping *)

Definition MAXCAP : Z := 2147483648.   (* FMAXCAPACITY *)

(** gxfile.cpp 4047-4057: the loop of growMapping.  [fuel] bounds the number of
    iterations; [grow_cap_enough] shows that 80 always suffice. *)
Fixpoint grow_cap (fuel : nat) (f cap : Z) : Z :=
  match fuel with
  | O => cap
  | S k =>
      if f >=? cap then
        let delta := if cap >=? 1048576 then cap / 2
                     else if cap <=? 0 then 1024
                     else cap in
        let c := cap + delta in
        grow_cap k f (if c >? MAXCAP then MAXCAP else c)
      else cap
  end.

Record imap := mkIM {
  im_cells : list Z;    (* PMap[0 .. FCapacity-1] *)
  im_high : Z           (* FHighestIndex *)
}.

Definition im_new : imap := mkIM [] 0.

(** gxfile.cpp 4087-4090 (GetMapping). *)
Definition im_get (m : imap) (f : Z) : Z :=
  match znth (im_cells m) f with Some v => v | None => -1 end.

(** gxfile.cpp 4043-4069 (growMapping): new cells hold -1 (memset with byte 255). *)
Definition im_grow (m : imap) (f : Z) : list Z :=
  let cap := zlen (im_cells m) in
  im_cells m ++ repeat (-1) (Z.to_nat (grow_cap 80 f cap - cap)).

(** gxfile.cpp 4092-4097 (SetMapping).  A negative index writes outside the array. *)
Definition im_set (m : imap) (f t : Z) : outcome imap :=
  if f <? 0 then UB
  else
    let cells := if f >=? zlen (im_cells m) then im_grow m f else im_cells m in
    Done (mkIM (zset f t cells) (if f >? im_high m then f else im_high m)).

(** Applying a sequence of assignments. *)
Fixpoint im_sets (m : imap) (ops : list (Z * Z)) : outcome imap :=
  match ops with
  | [] => Done m
  | (f, t) :: r => obind (im_set m f t) (fun m' => im_sets m' r)
  end.

(** Specification: the last assignment to an index wins; everything else is -1. *)
Fixpoint last_assigned (ops : list (Z * Z)) (f : Z) : Z :=
  match ops with
  | [] => -1
  | (g, t) :: r => if existsb (fun p => fst p =? f) r then last_assigned r f
                   else if g =? f then t else last_assigned r f
  end.

Lemma grow_step_lower : forall cap, 1024 <= cap < MAXCAP ->
  let delta := if cap >=? 1048576 then cap / 2 else if cap <=? 0 then 1024 else cap in
  let c := cap + delta in
  let c' := if c >? MAXCAP then MAXCAP else c in
  c' <= MAXCAP /\ (c' = MAXCAP \/ 5 * cap <= 4 * c').
Proof. intros cap H. unfold MAXCAP in *. cbv zeta. rewrite Z.geb_leb, Z.gtb_ltb.
  destruct (Z.leb_spec 1048576 cap); [|destruct (Z.leb_spec cap 0); [lia|]];
  match goal with |- context [2147483648 <? ?c] => destruct (Z.ltb_spec 2147483648 c) end; lia. Qed.

Lemma grow_cap_iter : forall k f cap, 0 <= f < MAXCAP -> 1024 <= cap <= MAXCAP ->
  let c := grow_cap k f cap in
  cap <= c <= MAXCAP /\ (f < c \/ 5 ^ Z.of_nat k * cap <= 4 ^ Z.of_nat k * c).
Proof.
  induction k as [| k IH]; intros f cap Hf Hc; cbn [grow_cap]; cbv zeta.
  - split; [lia|]. right. simpl. lia.
  - rewrite Z.geb_leb. destruct (Z.leb_spec cap f) as [L|L]; [|split; [lia|left; lia]].
    assert (S := grow_step_lower cap). cbv zeta in S.
    set (c' := if _ >? MAXCAP then _ else _) in *.
    destruct S as (S1 & S2); [lia|].
    assert (1024 <= c' <= MAXCAP).
    { split; [|lia]. destruct S2 as [->|S2]; [unfold MAXCAP|]; lia. }
    assert (cap <= c').
    { destruct S2 as [->|S2]; lia. }
    specialize (IH f c' Hf H). cbv zeta in IH. destruct IH as (I1 & I2).
    split; [lia|].
    destruct I2 as [I2|I2]; [left; assumption|].
    destruct S2 as [S2|S2].
    + left. rewrite S2 in *. lia.
    + right. rewrite Nat2Z.inj_succ, !Z.pow_succ_r by lia.
      assert (0 < 5 ^ Z.of_nat k) by (apply Z.pow_pos_nonneg; lia). nia.
Qed.

Lemma grow_cap_enough : forall f cap, 0 <= f < MAXCAP -> cap = 0 \/ 1024 <= cap <= MAXCAP ->
  cap <= grow_cap 80 f cap <= MAXCAP /\ f < grow_cap 80 f cap /\ 1024 <= grow_cap 80 f cap.
Proof.
  intros f cap Hf Hc.
  assert (G : forall k c, 1024 <= c <= MAXCAP -> k = 79%nat \/ k = 80%nat ->
    c <= grow_cap k f c <= MAXCAP /\ f < grow_cap k f c).
  { intros k c Hc' Hk. destruct (grow_cap_iter k f c Hf Hc') as (A & [B|B]); [auto|].
    split; [assumption|]. exfalso. set (g := grow_cap k f c) in *.
    assert (5 ^ Z.of_nat k > 4 ^ Z.of_nat k * 4194304).
    { destruct Hk as [-> | ->]; vm_compute; reflexivity. }
    unfold MAXCAP in *. assert (0 < 4 ^ Z.of_nat k) by (apply Z.pow_pos_nonneg; lia). nia. }
  destruct Hc as [->|Hc].
  - assert (E0 : forall k, grow_cap (S k) f 0 = if f >=? 0 then grow_cap k f 1024 else 0) by reflexivity.
    rewrite (E0 79%nat).
    destruct (Z.geb_spec f 0); [|lia].
    destruct (G 79%nat 1024) as (A & B); [unfold MAXCAP; lia|auto|]. lia.
  - destruct (G 80%nat cap Hc) as (A & B); [auto|]. lia.
Qed.

Definition im_inv (m : imap) : Prop :=
  (zlen (im_cells m) = 0 \/ 1024 <= zlen (im_cells m) <= MAXCAP) /\ 0 <= im_high m.

Lemma im_new_inv : im_inv im_new.
Proof. unfold im_inv, im_new; cbn. lia. Qed.

Lemma znth_repeat : forall {A} (a : A) n i, 0 <= i < Z.of_nat n -> znth (repeat a n) i = Some a.
Proof.
  intros A a n i H. destruct (znth_exists (repeat a n) i) as (x & E).
  { unfold zlen. rewrite repeat_length. lia. }
  rewrite E. f_equal. unfold znth in E. destruct (i <? 0); [discriminate|].
  apply nth_error_In in E. apply repeat_spec in E. congruence.
Qed.

Lemma im_set_spec : forall m f t, im_inv m -> 0 <= f <= INT_MAX ->
  exists m', im_set m f t = Done m' /\ im_inv m' /\
    (forall g, im_get m' g = if g =? f then t else im_get m g) /\
    im_high m' = Z.max f (im_high m).
Proof.
  intros m f t (Hc & Hh) Hf. unfold im_set.
  destruct (Z.ltb_spec f 0); [lia|]. eexists. split; [reflexivity|].
  set (cells := if f >=? zlen (im_cells m) then im_grow m f else im_cells m).
  assert (C : (forall g, match znth cells g with Some v => v | None => -1 end = im_get m g) /\
              f < zlen cells /\ (1024 <= zlen cells <= MAXCAP)).
  { unfold cells. rewrite Z.geb_leb. destruct (Z.leb_spec (zlen (im_cells m)) f) as [L|L].
    - destruct (grow_cap_enough f (zlen (im_cells m))) as (A & B & D); [unfold INT_MAX, MAXCAP in *; lia|assumption|].
      unfold im_grow. rewrite zlen_app, zlen_repeat.
      split; [|lia].
      intros g. unfold im_get. destruct (Z.lt_ge_cases g (zlen (im_cells m))) as [G|G].
      + rewrite znth_app_l by assumption. reflexivity.
      + rewrite znth_app_r by assumption. rewrite (znth_None (im_cells m)) by lia.
        destruct (Z.lt_ge_cases g (grow_cap 80 f (zlen (im_cells m)))).
        * rewrite znth_repeat by lia. reflexivity.
        * rewrite znth_None; [reflexivity|]. right. rewrite zlen_repeat. lia.
    - split; [reflexivity|]. split; [assumption|]. destruct Hc; lia. }
  destruct C as (C1 & C2 & C3).
  split.
  { unfold im_inv; cbn [im_cells im_high]. rewrite zset_length. rewrite Z.gtb_ltb. destruct (Z.ltb_spec (im_high m) f); lia. }
  split.
  - intros g. unfold im_get at 1; cbn [im_cells].
    destruct (Z.eqb_spec g f) as [->|N].
    + rewrite znth_zset_eq by lia. reflexivity.
    + rewrite znth_zset_neq by congruence. apply C1.
  - cbn [im_high]. rewrite Z.gtb_ltb. destruct (Z.ltb_spec (im_high m) f); lia.
Qed.

Lemma im_sets_spec : forall ops m, im_inv m -> Forall (fun p => 0 <= fst p <= INT_MAX) ops ->
  exists m', im_sets m ops = Done m' /\ im_inv m' /\
    (forall g, im_get m' g = if existsb (fun p => fst p =? g) ops then last_assigned ops g else im_get m g) /\
    im_high m' = fold_left Z.max (map fst ops) (im_high m).
Proof.
  induction ops as [| [f t] ops IH]; intros m I F; cbn [im_sets].
  - exists m. repeat split; auto; apply I.
  - inversion F; subst. cbn [fst] in *.
    destruct (im_set_spec m f t I H1) as (m1 & E & I1 & G1 & H1').
    rewrite E. cbn [obind]. destruct (IH m1 I1 H2) as (m2 & E2 & I2 & G2 & H2').
    exists m2. split; [assumption|]. split; [assumption|]. split.
    + intros g. rewrite G2. cbn [existsb fst last_assigned].
      destruct (existsb (fun p => fst p =? g) ops) eqn:X.
      * rewrite orb_true_r. reflexivity.
      * rewrite orb_false_r, G1. rewrite (Z.eqb_sym f g). destruct (g =? f); reflexivity.
    + rewrite H2'. cbn [map fst fold_left]. rewrite H1'. f_equal. lia.
Qed.

(** ** TBooleanBitArray *)

Record bitarr := mkBA {
  ba_data : list Z;    (* PData[0 .. FAllocated-1], bytes *)
  ba_high : Z          (* FHighIndex *)
}.

Definition ba_new : bitarr := mkBA [] (-1).

(** gmsobj.hpp 340-347 (GetBit).  Reading outside the allocation would be undefined;
    [ba_inv] below shows it does not happen. *)
Definition ba_get (b : bitarr) (n : Z) : outcome bool :=
  if (n <? 0) || (n >? ba_high b) then Done false
  else match znth (ba_data b) (Z.shiftr n 3) with
       | Some w => Done (Z.testbit w (Z.land n 7))
       | None => UB
       end.

(** gmsobj.hpp 349-376 (SetHighIndex): [Delta] is accumulated until the needed size
    fits; written with the closed form of the loop's step. *)
Fixpoint ba_delta (fuel : nat) (alloc need delta : Z) : option Z :=
  match fuel with
  | O => None
  | S k =>
      let d := delta + (if alloc =? 0 then 256 else if alloc <? 8192 then alloc else alloc / 4) in
      if need >=? alloc + d then ba_delta k alloc need d else Some d
  end.

Definition ba_grow (b : bitarr) (v : Z) : outcome bitarr :=
  if v >? ba_high b then
    if v >? INT_MAX - 8 then UB   (* V + 8 overflows *)
    else
      let need := (v + 8) / 8 in
      let alloc := zlen (ba_data b) in
      if need >? alloc then
        match ba_delta (Z.to_nat (need + 1)) alloc need 0 with
        | Some d => Done (mkBA (ba_data b ++ repeat 0 (Z.to_nat d)) v)
        | None => UB
        end
      else Done (mkBA (ba_data b) v)
  else Done b.

(** gmsobj.hpp 383-399 (SetBit).  Clearing a bit computes [PData[P] &= !M]: the
    logical negation of a non-zero mask is 0, so the whole byte is cleared. *)
Definition ba_set (b : bitarr) (n : Z) (v : bool) : outcome bitarr :=
  if n <? 0 then Done b
  else if (n >? ba_high b) && negb v then Done b
  else
    obind (if n >? ba_high b then ba_grow b n else Done b) (fun b' =>
      let p := Z.shiftr n 3 in
      match znth (ba_data b') p with
      | Some w => Done (mkBA (zset p (if v then Z.lor w (Z.shiftl 1 (Z.land n 7)) else 0) (ba_data b'))
                             (ba_high b'))
      | None => UB
      end).

Definition ba_inv (b : bitarr) : Prop :=
  -1 <= ba_high b /\ (ba_high b + 8) / 8 <= zlen (ba_data b) /\
  (forall n, ba_high b < n -> forall w, znth (ba_data b) (Z.shiftr n 3) = Some w -> Z.testbit w (Z.land n 7) = false).

Lemma ba_new_inv : ba_inv ba_new.
Proof.
  unfold ba_inv, ba_new; cbn [ba_high ba_data]. split; [lia|]. split; [reflexivity|].
  intros n H w E. apply znth_Some in E. unfold zlen in E. cbn [length] in E. lia.
Qed.

Lemma ba_delta_spec : forall k alloc need delta, 0 <= alloc -> 0 <= delta ->
  need - alloc - delta < Z.of_nat k ->
  0 < Z.of_nat k ->
  exists d, ba_delta k alloc need delta = Some d /\ need < alloc + d /\ 0 <= d.
Proof.
  induction k as [| k IH]; intros alloc need delta Ha Hd Hn Hk; [lia|].
  cbn [ba_delta].
  set (st := if alloc =? 0 then 256 else if alloc <? 8192 then alloc else alloc / 4).
  assert (1 <= st).
  { unfold st. destruct (Z.eqb_spec alloc 0); [lia|]. destruct (Z.ltb_spec alloc 8192); lia. }
  rewrite Z.geb_leb. destruct (Z.leb_spec (alloc + (delta + st)) need) as [L|L].
  - apply IH; lia.
  - eexists. split; [reflexivity|]. lia.
Qed.

Lemma shiftr3 : forall n, Z.shiftr n 3 = n / 8.
Proof. intros. rewrite Z.shiftr_div_pow2 by lia. reflexivity. Qed.
Lemma land7 : forall n, Z.land n 7 = n mod 8.
Proof. intros. change 7 with (Z.ones 3). rewrite Z.land_ones by lia. reflexivity. Qed.

Lemma ba_grow_spec : forall b v, ba_inv b -> v <= INT_MAX - 8 ->
  exists b', ba_grow b v = Done b' /\ ba_high b' = Z.max v (ba_high b) /\ ba_inv b' /\
    (forall p w, znth (ba_data b) p = Some w -> znth (ba_data b') p = Some w) /\
    (forall p w, znth (ba_data b') p = Some w -> znth (ba_data b) p = Some w \/ (zlen (ba_data b) <= p /\ w = 0)).
Proof.
  intros b v (H1 & H2 & H3) Hv. unfold ba_grow.
  rewrite Z.gtb_ltb. destruct (Z.ltb_spec (ba_high b) v) as [L|L].
  2:{ exists b. split; [reflexivity|]. split; [lia|]. split; [unfold ba_inv; auto|]. split; auto. }
  rewrite Z.gtb_ltb. destruct (Z.ltb_spec (INT_MAX - 8) v); [lia|].
  rewrite Z.gtb_ltb. destruct (Z.ltb_spec (zlen (ba_data b)) ((v + 8) / 8)) as [G|G].
  - destruct (ba_delta_spec (Z.to_nat ((v + 8) / 8 + 1)) (zlen (ba_data b)) ((v + 8) / 8) 0) as (d & E & D1 & D2).
    { apply zlen_nonneg. } { lia. } { pose proof (zlen_nonneg (ba_data b)). lia. } { lia. }
    rewrite E. eexists. split; [reflexivity|]. cbn [ba_high ba_data].
    split; [lia|].
    assert (N : forall p w, znth (ba_data b ++ repeat 0 (Z.to_nat d)) p = Some w ->
              znth (ba_data b) p = Some w \/ (zlen (ba_data b) <= p /\ w = 0)).
    { intros p w Ew. assert (B := znth_Some _ _ _ Ew). rewrite zlen_app, zlen_repeat in B.
      destruct (Z.lt_ge_cases p (zlen (ba_data b))) as [P|P].
      - rewrite znth_app_l in Ew by assumption. auto.
      - rewrite znth_app_r in Ew by assumption. rewrite znth_repeat in Ew by lia. injection Ew as <-. auto. }
    split; [|split; [|exact N]].
    + split; [cbn [ba_high]; lia|]. split.
      * cbn [ba_data ba_high]. rewrite zlen_app, zlen_repeat. lia.
      * cbn [ba_data ba_high]. intros n Hn w Ew. destruct (N _ _ Ew) as [Ew'|[_ ->]]; [|apply Z.bits_0].
        eapply H3; [|exact Ew']. lia.
    + intros p w Ew. rewrite znth_app_l; [assumption|]. apply znth_Some in Ew. lia.
  - eexists. split; [reflexivity|]. cbn [ba_high ba_data]. split; [lia|].
    split; [|split; auto].
    split; [cbn; lia|]. split; [cbn; lia|]. cbn [ba_data ba_high]. intros n Hn w Ew. eapply H3; [|exact Ew]. lia.
Qed.

(** Membership after setting a bit. *)
Lemma ba_set_true_spec : forall b n, ba_inv b -> n <= INT_MAX - 8 ->
  exists b', ba_set b n true = Done b' /\ ba_inv b' /\
    (forall m, exists v, ba_get b m = Done v /\
       ba_get b' m = Done (if (m =? n) && (0 <=? n) then true else v)).
Proof.
  intros b n I Hn. unfold ba_set.
  assert (GD : forall b0 m, ba_inv b0 -> exists v, ba_get b0 m = Done v).
  { intros b0 m (A & B & C). unfold ba_get. rewrite Z.gtb_ltb.
    destruct (Z.ltb_spec m 0); cbn [orb]; [eauto|]. destruct (Z.ltb_spec (ba_high b0) m); [eauto|].
    rewrite shiftr3. destruct (znth_exists (ba_data b0) (m / 8)) as (w & E); [lia|]. rewrite E. eauto. }
  destruct (Z.ltb_spec n 0) as [L|L].
  { exists b. split; [reflexivity|]. split; [assumption|]. intros m. destruct (GD b m I) as (v & E).
    exists v. split; [assumption|]. destruct (Z.leb_spec 0 n); [lia|]. rewrite andb_false_r. assumption. }
  cbn [negb]. rewrite andb_false_r.
  destruct (ba_grow_spec b n I Hn) as (b1 & E1 & H1 & I1 & P1 & P2).
  assert (E1' : (if n >? ba_high b then ba_grow b n else Done b) = Done b1).
  { rewrite Z.gtb_ltb. destruct (Z.ltb_spec (ba_high b) n); [assumption|].
    unfold ba_grow in E1. rewrite Z.gtb_ltb in E1. destruct (Z.ltb_spec (ba_high b) n); [lia|]. assumption. }
  rewrite E1'. cbn [obind]. rewrite shiftr3, land7.
  destruct I1 as (A & B & C).
  destruct (znth_exists (ba_data b1) (n / 8)) as (w & Ew); [lia|].
  rewrite Ew. eexists. split; [reflexivity|].
  set (b2 := mkBA _ _).
  assert (T : forall m, 0 <= m -> forall w', znth (ba_data b1) (m / 8) = Some w' ->
     exists w2, znth (ba_data b2) (m / 8) = Some w2 /\
       Z.testbit w2 (m mod 8) = if m =? n then true else Z.testbit w' (m mod 8)).
  { intros m Hm w' Ew'. unfold b2; cbn [ba_data].
    destruct (Z.eq_dec (m / 8) (n / 8)) as [Q|Q].
    - rewrite Q. rewrite znth_zset_eq by (eapply znth_Some; exact Ew). eexists. split; [reflexivity|].
      rewrite Q in Ew'. rewrite Ew in Ew'. injection Ew' as <-.
      rewrite Z.lor_spec, Z.shiftl_spec by lia.
      destruct (Z.eqb_spec m n) as [->|N].
      + rewrite Z.sub_diag. cbn. apply orb_true_r.
      + assert (m mod 8 <> n mod 8) by lia.
        replace (Z.testbit 1 (m mod 8 - n mod 8)) with false; [apply orb_false_r|].
        symmetry. destruct (Z.lt_ge_cases (m mod 8 - n mod 8) 0).
        * apply Z.testbit_neg_r. lia.
        * change 1 with (2^0). apply Z.pow2_bits_false. lia.
    - rewrite znth_zset_neq by congruence. exists w'. split; [assumption|].
      destruct (Z.eqb_spec m n); [congruence|reflexivity]. }
  split.
  { split; [exact A|]. split; [unfold b2; cbn [ba_data ba_high]; rewrite zset_length; exact B|].
    unfold b2; cbn [ba_high]. intros m Hm w2 Ew2. rewrite shiftr3 in Ew2. rewrite land7.
    assert (L2 := znth_Some _ _ _ Ew2). cbn [ba_data] in L2. rewrite zset_length in L2.
    destruct (znth_exists (ba_data b1) (m / 8)) as (w' & Ew'); [lia|].
    destruct (T m ltac:(lia) w' Ew') as (w3 & E3 & T3). unfold b2 in E3. rewrite E3 in Ew2. injection Ew2 as <-.
    rewrite T3. destruct (Z.eqb_spec m n); [lia|].
    rewrite <- (land7 m). eapply C; [exact Hm|]. rewrite shiftr3. assumption. }
  intros m. destruct (GD b m I) as (v & Ev). exists v. split; [assumption|].
  destruct (Z.leb_spec 0 n); [|lia]. rewrite andb_true_r.
  unfold ba_get. unfold b2 at 1; cbn [ba_high].
  rewrite Z.gtb_ltb. destruct (Z.ltb_spec m 0); cbn [orb].
  { destruct (Z.eqb_spec m n); [lia|]. unfold ba_get in Ev. destruct (Z.ltb_spec m 0); [|lia]. cbn [orb] in Ev. congruence. }
  destruct (Z.ltb_spec (ba_high b1) m).
  { destruct (Z.eqb_spec m n); [lia|]. unfold ba_get in Ev. rewrite Z.gtb_ltb in Ev.
    destruct (Z.ltb_spec m 0); [lia|]. cbn [orb] in Ev. destruct (Z.ltb_spec (ba_high b) m); [congruence|lia]. }
  rewrite shiftr3, land7. destruct (znth_exists (ba_data b1) (m / 8)) as (w' & Ew'); [lia|].
  destruct (T m ltac:(lia) w' Ew') as (w3 & E3 & T3). rewrite E3, T3.
  destruct (m =? n); [reflexivity|]. rewrite <- Ev. unfold ba_get. rewrite Z.gtb_ltb.
  destruct (Z.ltb_spec m 0); [lia|]. cbn [orb]. destruct (Z.ltb_spec (ba_high b) m).
  - f_equal. destruct I as (IA & IB & IC). destruct (P2 _ _ Ew') as [Ew0|[_ ->]]; [|apply Z.bits_0].
    rewrite <- (land7 m). eapply IC; [|rewrite shiftr3; exact Ew0]. lia.
  - rewrite ?shiftr3, ?land7. destruct (P2 _ _ Ew') as [Ew0|[P0 _]]; [rewrite Ew0; reflexivity|].
    destruct I as (IA & IB & IC). exfalso. lia.
Qed.

(** The set built by any sequence of insertions is the set of the inserted
    non-negative numbers. *)
Fixpoint ba_sets (b : bitarr) (ns : list Z) : outcome bitarr :=
  match ns with
  | [] => Done b
  | n :: r => obind (ba_set b n true) (fun b' => ba_sets b' r)
  end.

Lemma ba_sets_spec : forall ns b, ba_inv b -> Forall (fun n => n <= INT_MAX - 8) ns ->
  exists b', ba_sets b ns = Done b' /\ ba_inv b' /\
    forall m, exists v, ba_get b m = Done v /\
      ba_get b' m = Done (v || existsb (fun n => (n =? m) && (0 <=? n)) ns).
Proof.
  induction ns as [| n ns IH]; intros b I F; cbn [ba_sets].
  - exists b. split; [reflexivity|]. split; [assumption|]. intros m.
    unfold ba_get. destruct ((m <? 0) || (m >? ba_high b)) eqn:G.
    + exists false. split; reflexivity.
    + destruct I as (A & B & C). rewrite shiftr3. destruct (znth_exists (ba_data b) (m / 8)) as (w & E); [lia|].
      rewrite E. eexists. split; [reflexivity|]. cbn [existsb]. rewrite orb_false_r. reflexivity.
  - inversion F; subst. destruct (ba_set_true_spec b n I H1) as (b1 & E1 & I1 & G1).
    rewrite E1. cbn [obind]. destruct (IH b1 I1 H2) as (b2 & E2 & I2 & G2).
    exists b2. split; [assumption|]. split; [assumption|].
    intros m. destruct (G1 m) as (v & V1 & V2). destruct (G2 m) as (v' & W1 & W2).
    exists v. split; [assumption|]. rewrite W2. rewrite V2 in W1. injection W1 as <-.
    cbn [existsb]. rewrite (Z.eqb_sym n m).
    destruct ((m =? n) && (0 <=? n)); cbn [orb].
    + rewrite orb_true_r. reflexivity.
    + reflexivity.
Qed.
