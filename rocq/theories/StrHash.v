(** * StrHash: the string dictionary

    src/gdlib/strhash.hpp 50-582 (TXStrHashList and TXCSStrHashList), and the text
    comparison of src/gdlib/utils.hpp.  Buckets are numbered in order of insertion;
    a hash chain is the list of the numbers of its buckets, in chain order. *)

From Verif Require Import Base.

(** utils.hpp 198-201 (toupper) and tolower. *)
Definition toupper (c : Z) : Z := if (97 <=? c) && (c <=? 122) then c - 32 else c.
Definition tolower (c : Z) : Z := if (65 <=? c) && (c <=? 90) then c + 32 else c.

Definition upper (s : str) : str := map toupper s.

Fixpoint str_eqb (a b : str) : bool :=
  match a, b with
  | [], [] => true
  | x :: a', y :: b' => (x =? y) && str_eqb a' b'
  | _, _ => false
  end.

(** utils.hpp 475-486 (sameTextPChar): strcasecmp (in the "C" locale) or strcmp. *)
Definition same_text (ci : bool) (a b : str) : bool :=
  if ci then str_eqb (map tolower a) (map tolower b) else str_eqb a b.

(** A plain [char] is signed: bytes above 127 are negative when added. *)
Definition schar (c : Z) : Z := if c <? 128 then c else c - 256.

(** strhash.hpp 123-130 and 564-571 (Hash): 32-bit unsigned polynomial, then the
    low 31 bits modulo the table size. *)
Definition hash_step (ci : bool) (h c : Z) : Z :=
  (211 * h + schar (if ci then toupper c else c)) mod 2^32.
Definition hash_val (ci : bool) (size : Z) (s : str) : Z :=
  (fold_left (hash_step ci) s 0 mod 2^31) mod size.

(** strhash.hpp 73-121 (HashTableReset): table size and rehash threshold. *)
Definition table_params (cnt : Z) : Z * Z :=
  if 15000000 <=? cnt then (99999989, 2147483647)
  else if 1500000 <=? cnt then (9999991, 15000000)
  else if 150000 <=? cnt then (999979, 1500000)
  else if 15000 <=? cnt then (99991, 150000)
  else if 1500 <=? cnt then (9973, 15000)
  else (997, 1500).

(** PHashTable, HashTableSize and ReHashCnt.  [None]: no table (both sizes 0). *)
Record htable := mkHT {
  ht_size : Z;
  ht_rehash : Z;
  ht_chain : Z -> list Z    (* chain of 0-based bucket numbers *)
}.

Section SH.
Context {T : Type}.

Record hlist := mkHL {
  hl_ents : list (str * T);      (* Buckets, in order of insertion *)
  hl_tab : option htable
}.

Definition hl_new : hlist := mkHL [] None.
Definition hl_count (h : hlist) : Z := zlen (hl_ents h).

Definition chain_cons (t : htable) (hv n : Z) : htable :=
  mkHT (ht_size t) (ht_rehash t) (fun h => if h =? hv then n :: ht_chain t h else ht_chain t h).

(** strhash.hpp 142-154 (HashAll): every bucket, in order, is put in front of its chain. *)
Fixpoint hash_from (ci : bool) (t : htable) (n : Z) (l : list (str * T)) : htable :=
  match l with
  | [] => t
  | e :: l' => hash_from ci (chain_cons t (hash_val ci (ht_size t) (fst e)) n) (n + 1) l'
  end.
Definition hash_all (ci : bool) (l : list (str * T)) : htable :=
  let '(size, re) := table_params (zlen l) in
  hash_from ci (mkHT size re (fun _ => [])) 0 l.

(** strhash.hpp 315-322 and 361-369: walking a chain until the text matches. *)
Fixpoint find_chain (ci : bool) (l : list (str * T)) (s : str) (chain : list Z) : option Z :=
  match chain with
  | [] => None
  | n :: r => match znth l n with
              | Some e => if same_text ci (fst e) s then Some n else find_chain ci l s r
              | None => None
              end
  end.

(** strhash.hpp 310-346 (AddObject).  Returns the 0-based number; the caller adds 1
    for one-based lists. *)
Definition hl_add (ci : bool) (h : hlist) (s : str) (o : T) : hlist * Z :=
  let re := match hl_tab h with Some t => ht_rehash t | None => 0 end in
  let t := if re <=? hl_count h then hash_all ci (hl_ents h)
           else match hl_tab h with Some t => t | None => hash_all ci (hl_ents h) end in
  let hv := hash_val ci (ht_size t) s in
  match find_chain ci (hl_ents h) s (ht_chain t hv) with
  | Some n => (mkHL (hl_ents h) (Some t), n)
  | None => (mkHL (hl_ents h ++ [(s, o)]) (Some (chain_cons t hv (hl_count h))), hl_count h)
  end.

(** strhash.hpp 282-308 (StoreObject): append without looking, dropping the table. *)
Definition hl_store (h : hlist) (s : str) (o : T) : hlist * Z :=
  (mkHL (hl_ents h ++ [(s, o)]) None, hl_count h).

(** strhash.hpp 358-370 (IndexOf). *)
Definition hl_index (ci : bool) (h : hlist) (s : str) : hlist * option Z :=
  let t := match hl_tab h with Some t => t | None => hash_all ci (hl_ents h) end in
  (mkHL (hl_ents h) (Some t),
   find_chain ci (hl_ents h) s (ht_chain t (hash_val ci (ht_size t) s))).

(** strhash.hpp 421-428: unlinking bucket [n] from a chain. *)
Fixpoint unlink (n : Z) (chain : list Z) : list Z :=
  match chain with
  | [] => []
  | m :: r => if m =? n then r else m :: unlink n r
  end.

Definition set_text (l : list (str * T)) (n : Z) (s : str) : list (str * T) :=
  match znth l n with
  | Some e => zset n (s, snd e) l
  | None => l
  end.

(** strhash.hpp 410-435 (RenameEntry), for a valid 0-based number [n]. *)
Definition hl_rename (ci : bool) (h : hlist) (n : Z) (s : str) : hlist :=
  match znth (hl_ents h) n with
  | None => h
  | Some e =>
      let tab' :=
        match hl_tab h with
        | None => None
        | Some t =>
            let hv0 := hash_val ci (ht_size t) (fst e) in
            let hv1 := hash_val ci (ht_size t) s in
            if hv0 =? hv1 then Some t
            else Some (chain_cons
                   (mkHT (ht_size t) (ht_rehash t)
                         (fun h => if h =? hv0 then unlink n (ht_chain t h) else ht_chain t h))
                   hv1 n)
        end in
      mkHL (set_text (hl_ents h) n s) tab'
  end.

(** ** Specification: an insertion-ordered list searched from the end *)

(** Position (0-based) of the last entry with the given text; when texts are
    pairwise different it is the only one. *)
Fixpoint sl_find_from (ci : bool) (l : list (str * T)) (s : str) (n : Z) : option Z :=
  match l with
  | [] => None
  | e :: r => match sl_find_from ci r s (n + 1) with
              | Some m => Some m
              | None => if same_text ci (fst e) s then Some n else None
              end
  end.
Definition sl_find (ci : bool) (l : list (str * T)) (s : str) : option Z := sl_find_from ci l s 0.

Definition sl_add (ci : bool) (l : list (str * T)) (s : str) (o : T) : list (str * T) * Z :=
  match sl_find ci l s with
  | Some n => (l, n)
  | None => (l ++ [(s, o)], zlen l)
  end.

End SH.
Arguments hlist : clear implicits.

(** ** Facts about texts *)

Lemma str_eqb_spec : forall a b, str_eqb a b = true <-> a = b.
Proof.
  induction a as [| x a IH]; intros [| y b]; cbn [str_eqb]; try (split; [discriminate|discriminate]); [tauto|].
  rewrite andb_true_iff, Z.eqb_eq, IH. split; [intros [-> ->]; reflexivity|intros E; injection E; auto].
Qed.

Lemma tolower_toupper_eq : forall a b, tolower a = tolower b <-> toupper a = toupper b.
Proof.
  intros a b. unfold tolower, toupper.
  destruct (Z.leb_spec 65 a), (Z.leb_spec a 90), (Z.leb_spec 65 b), (Z.leb_spec b 90),
           (Z.leb_spec 97 a), (Z.leb_spec a 122), (Z.leb_spec 97 b), (Z.leb_spec b 122);
    cbn [andb]; lia.
Qed.

Definition norm (ci : bool) (s : str) : str := if ci then upper s else s.

Lemma map_lower_upper : forall a b, map tolower a = map tolower b <-> upper a = upper b.
Proof.
  unfold upper. induction a as [| x a IH]; intros [| y b]; cbn [map]; try (split; discriminate); [tauto|].
  split; intros E; injection E as E1 E2; f_equal; try (apply IH; assumption);
    apply tolower_toupper_eq; assumption.
Qed.

Lemma same_text_spec : forall ci a b, same_text ci a b = true <-> norm ci a = norm ci b.
Proof.
  intros [|] a b; cbn [same_text norm]; rewrite str_eqb_spec; [apply map_lower_upper|reflexivity].
Qed.

Lemma same_text_refl : forall ci a, same_text ci a a = true.
Proof. intros. apply same_text_spec. reflexivity. Qed.

Lemma same_text_sym : forall ci a b, same_text ci a b = same_text ci b a.
Proof.
  intros. destruct (same_text ci a b) eqn:E, (same_text ci b a) eqn:F; try reflexivity;
    [apply same_text_spec in E; symmetry in E; apply same_text_spec in E
    |apply same_text_spec in F; symmetry in F; apply same_text_spec in F]; congruence.
Qed.

Lemma same_text_trans : forall ci a b c, same_text ci a b = true -> same_text ci b c = true -> same_text ci a c = true.
Proof. intros ci a b c. rewrite !same_text_spec. congruence. Qed.

(** Equal texts fall in the same chain. *)
Lemma hash_val_same : forall ci size a b, same_text ci a b = true -> hash_val ci size a = hash_val ci size b.
Proof.
  intros ci size a b H. apply same_text_spec in H. unfold hash_val. do 2 f_equal.
  assert (G : forall s h, fold_left (hash_step ci) s h = fold_left (fun h c => (211 * h + schar c) mod 2^32) (norm ci s) h).
  { intros s. destruct ci; cbn [norm]; unfold upper, hash_step.
    - induction s as [| c s IH]; intros h; [reflexivity|]. cbn [fold_left map]. apply IH.
    - induction s as [| c s IH]; intros h; [reflexivity|]. cbn [fold_left]. apply IH. }
  rewrite !G, H. reflexivity.
Qed.

(** ** The table agrees with the list *)

Section SHP.
Context {T : Type}.
Context (ci : bool).

(** No two entries have the same text. *)
Definition distinct (l : list (str * T)) : Prop :=
  forall i j a b, znth l i = Some a -> znth l j = Some b -> same_text ci (fst a) (fst b) = true -> i = j.

(** Every chain holds exactly the entries hashed to it. *)
Definition chains_ok (l : list (str * T)) (t : htable) : Prop :=
  forall h n, In n (ht_chain t h) <->
    exists e, znth l n = Some e /\ hash_val ci (ht_size t) (fst e) = h.

Definition chains_nodup (t : htable) : Prop := forall h, NoDup (ht_chain t h).

Definition hl_ok (h : hlist T) : Prop :=
  match hl_tab h with
  | None => True
  | Some t => chains_ok (hl_ents h) t /\ chains_nodup t
  end.

Lemma sl_find_from_Some : forall l s n m, sl_find_from ci l s n = Some m ->
  exists e, znth l (m - n) = Some e /\ same_text ci (fst (e : str * T)) s = true /\ n <= m.
Proof.
  induction l as [| e l IH]; intros s n m; cbn [sl_find_from]; [discriminate|].
  destruct (sl_find_from ci l s (n + 1)) as [m'|] eqn:E.
  - intros X; injection X as ->. destruct (IH _ _ _ E) as (e' & H1 & H2 & H3).
    exists e'. split; [|split; [assumption|lia]].
    change (e :: l) with ([e] ++ l). rewrite znth_app_r by (cbn; lia). cbn [zlen length].
    replace (m - n - zlen [e]) with (m - (n + 1)) by (cbn; lia). assumption.
  - destruct (same_text ci (fst e) s) eqn:S; [|discriminate].
    intros X; injection X as ->. exists e. rewrite Z.sub_diag. split; [reflexivity|]. split; [assumption|lia].
Qed.

Lemma sl_find_from_None : forall l s n, sl_find_from ci l s n = None <->
  forall i e, znth l i = Some (e : str * T) -> same_text ci (fst e) s = false.
Proof.
  induction l as [| e l IH]; intros s n; cbn [sl_find_from].
  - split; [|reflexivity]. intros _ i e H. apply znth_Some in H. unfold zlen in H. cbn [length] in H. lia.
  - destruct (sl_find_from ci l s (n + 1)) as [m'|] eqn:E.
    + split; [discriminate|]. intros H. exfalso.
      destruct (sl_find_from_Some _ _ _ _ E) as (e' & H1 & H2 & H3).
      specialize (H (m' - n) e'). rewrite H in H2; [discriminate|].
      change (e :: l) with ([e] ++ l). rewrite znth_app_r by (cbn; lia).
      replace (m' - n - zlen [e]) with (m' - (n + 1)) by (cbn; lia). assumption.
    + destruct (IH s (n + 1)) as [IH1 _]. specialize (IH1 E). destruct (same_text ci (fst e) s) eqn:S.
      * split; [discriminate|]. intros H. rewrite (H 0 e eq_refl) in S. discriminate.
      * split; [|reflexivity]. intros _ i e' H. change (e :: l) with ([e] ++ l) in H.
        assert (0 <= i < zlen ([e] ++ l)) by (eapply znth_Some; eassumption).
        destruct (Z.eq_dec i 0) as [->|N].
        -- injection H as <-. assumption.
        -- rewrite znth_app_r in H by (cbn; lia). eapply IH1. eassumption.
Qed.

Lemma sl_find_Some : forall l s m, sl_find ci l s = Some m ->
  exists e, znth l m = Some e /\ same_text ci (fst (e : str * T)) s = true.
Proof.
  intros l s m H. destruct (sl_find_from_Some _ _ _ _ H) as (e & H1 & H2 & _).
  rewrite Z.sub_0_r in H1. eauto.
Qed.

Lemma sl_find_unique : forall l s m e, distinct l -> znth l m = Some e ->
  same_text ci (fst (e : str * T)) s = true -> sl_find ci l s = Some m.
Proof.
  intros l s m e D H1 H2. destruct (sl_find ci l s) as [m'|] eqn:E.
  - destruct (sl_find_Some _ _ _ E) as (e' & H3 & H4). f_equal. eapply D; try eassumption.
    eapply same_text_trans; [eassumption|]. rewrite same_text_sym. assumption.
  - unfold sl_find in E. rewrite sl_find_from_None in E. rewrite (E _ _ H1) in H2. discriminate.
Qed.

Lemma find_chain_spec : forall l s chain,
  (forall n, In n chain -> exists e, znth l n = Some e) ->
  match find_chain ci l s chain with
  | Some n => In n chain /\ exists e, znth l n = Some e /\ same_text ci (fst (e : str * T)) s = true
  | None => forall n e, In n chain -> znth l n = Some e -> same_text ci (fst e) s = false
  end.
Proof.
  intros l s chain. induction chain as [| n chain IH]; intros H; cbn [find_chain].
  - intros n e [].
  - destruct (H n (or_introl eq_refl)) as (e & E). rewrite E.
    destruct (same_text ci (fst e) s) eqn:S.
    + split; [left; reflexivity|]. eauto.
    + specialize (IH (fun m Hm => H m (or_intror Hm))).
      destruct (find_chain ci l s chain) as [m|].
      * destruct IH as [I1 I2]. split; [right; assumption|assumption].
      * intros m e' [<-|I] E'; [congruence|]. eapply IH; eassumption.
Qed.

Lemma lookup_correct : forall l t s, distinct l -> chains_ok l t ->
  find_chain ci l s (ht_chain t (hash_val ci (ht_size t) s)) = sl_find ci l s.
Proof.
  intros l t s D C.
  assert (F := find_chain_spec l s (ht_chain t (hash_val ci (ht_size t) s))).
  destruct (find_chain ci l s (ht_chain t (hash_val ci (ht_size t) s))) as [n|].
  - destruct F as (I & e & E & S).
    { intros n' I. apply C in I. destruct I as (e & E & _). eauto. }
    symmetry. eapply sl_find_unique; eassumption.
  - symmetry. unfold sl_find. apply sl_find_from_None. intros i e E.
    destruct (same_text ci (fst e) s) eqn:S; [|reflexivity].
    rewrite (F (fun n I => let '(ex_intro _ e (conj E _)) := proj1 (C _ n) I in ex_intro _ e E) i e) in S; [discriminate| |assumption].
    apply C. exists e. split; [assumption|]. apply hash_val_same. assumption.
Qed.

Lemma znth_snoc : forall {A} (l : list A) a i x, znth (l ++ [a]) i = Some x <->
  (znth l i = Some x \/ (i = zlen l /\ x = a)).
Proof.
  intros A l a i x. destruct (Z.lt_ge_cases i (zlen l)) as [L|L].
  - rewrite znth_app_l by lia. split; [auto|]. intros [H|[-> _]]; [assumption|lia].
  - rewrite znth_app_r by lia. destruct (Z.eq_dec i (zlen l)) as [->|N].
    + rewrite Z.sub_diag. split.
      * intros H. injection H as <-. auto.
      * intros [H|[_ ->]]; [|reflexivity]. apply znth_Some in H. lia.
    + split.
      * intros H. apply znth_Some in H. cbn in H. lia.
      * intros [H|[H _]]; [apply znth_Some in H|]; lia.
Qed.

Lemma chain_cons_ok : forall l t s (o : T), chains_ok l t ->
  chains_ok (l ++ [(s, o)]) (chain_cons t (hash_val ci (ht_size t) s) (zlen l)).
Proof.
  intros l t s o C h n. cbn [chain_cons ht_chain ht_size].
  split.
  - intros I. assert (X : n = zlen l /\ h = hash_val ci (ht_size t) s \/ In n (ht_chain t h)).
    { destruct (Z.eqb_spec h (hash_val ci (ht_size t) s)); [destruct I as [<-|I]|]; auto. }
    destruct X as [[-> ->]|X].
    + exists (s, o). split; [apply znth_snoc; auto|reflexivity].
    + apply C in X. destruct X as (e & E & H). exists e. split; [apply znth_snoc; auto|assumption].
  - intros (e & E & H). apply znth_snoc in E. destruct E as [E|[-> ->]].
    + assert (In n (ht_chain t h)) by (apply C; eauto).
      destruct (h =? hash_val ci (ht_size t) s); [right|]; assumption.
    + cbn [fst] in H. rewrite H, Z.eqb_refl. left; reflexivity.
Qed.

Lemma chain_cons_nodup : forall l t s, chains_ok l t -> chains_nodup t ->
  chains_nodup (chain_cons t (hash_val ci (ht_size t) s) (zlen (l : list (str * T)))).
Proof.
  intros l t s C N h. cbn [chain_cons ht_chain].
  destruct (h =? hash_val ci (ht_size t) s); [|apply N].
  constructor; [|apply N]. intros I. apply C in I. destruct I as (e & E & _). apply znth_Some in E. lia.
Qed.

Lemma hash_from_ok : forall l2 l1 t, chains_ok l1 t -> chains_nodup t ->
  chains_ok (l1 ++ l2) (hash_from ci t (zlen l1) l2) /\
  chains_nodup (hash_from ci t (zlen (l1 : list (str * T))) l2).
Proof.
  induction l2 as [| [s o] l2 IH]; intros l1 t C N; cbn [hash_from].
  - rewrite app_nil_r. auto.
  - replace (l1 ++ (s, o) :: l2) with ((l1 ++ [(s, o)]) ++ l2) by (rewrite <- app_assoc; reflexivity).
    replace (zlen l1 + 1) with (zlen (l1 ++ [(s, o)])) by (rewrite zlen_app; reflexivity).
    apply IH; cbn [fst].
    + apply chain_cons_ok. assumption.
    + apply chain_cons_nodup; assumption.
Qed.

Lemma hash_all_ok : forall l : list (str * T), chains_ok l (hash_all ci l) /\ chains_nodup (hash_all ci l).
Proof.
  intros l. unfold hash_all. destruct (table_params (zlen l)) as [size re].
  apply (hash_from_ok l [] (mkHT size re (fun _ => []))).
  - intros h n. cbn. split; [intros []|]. intros (e & E & _). apply znth_Some in E. unfold zlen in E. cbn [length] in E. lia.
  - intros h. constructor.
Qed.

Lemma hl_add_correct : forall h s (o : T), hl_ok h -> distinct (hl_ents h) ->
  let r := hl_add ci h s o in
  hl_ok (fst r) /\ distinct (hl_ents (fst r)) /\
  (hl_ents (fst r), snd r) = sl_add ci (hl_ents h) s o.
Proof.
  intros h s o OK D. unfold hl_add, sl_add.
  set (t := if _ <=? _ then _ else _).
  assert (TO : chains_ok (hl_ents h) t /\ chains_nodup t).
  { unfold t. destruct (_ <=? _); [apply hash_all_ok|].
    unfold hl_ok in OK. destruct (hl_tab h); [assumption|apply hash_all_ok]. }
  destruct TO as (C & N).
  rewrite lookup_correct by assumption.
  destruct (sl_find ci (hl_ents h) s) as [n|] eqn:E; cbn [fst snd hl_ents].
  - split; [split; assumption|]. split; [assumption|reflexivity].
  - split; [|split; [|reflexivity]].
    + split; cbn [hl_ents hl_tab]; [apply chain_cons_ok; assumption|apply chain_cons_nodup; assumption].
    + unfold sl_find in E. rewrite sl_find_from_None in E.
      intros i j a b Ha Hb S. apply znth_snoc in Ha, Hb.
      destruct Ha as [Ha|[-> ->]], Hb as [Hb|[-> ->]]; cbn [fst] in *.
      * eapply D; eassumption.
      * rewrite (E _ _ Ha) in S. discriminate.
      * rewrite same_text_sym, (E _ _ Hb) in S. discriminate.
      * reflexivity.
Qed.

Lemma hl_store_correct : forall h s (o : T), sl_find ci (hl_ents h) s = None -> distinct (hl_ents h) ->
  let r := hl_store h s o in
  hl_ok (fst r) /\ distinct (hl_ents (fst r)) /\
  (hl_ents (fst r), snd r) = sl_add ci (hl_ents h) s o.
Proof.
  intros h s o F D. cbn [hl_store fst snd hl_ents]. unfold sl_add. rewrite F.
  split; [exact I|]. split; [|reflexivity].
  unfold sl_find in F. rewrite sl_find_from_None in F.
  intros i j a b Ha Hb S. apply znth_snoc in Ha, Hb.
  destruct Ha as [Ha|[-> ->]], Hb as [Hb|[-> ->]]; cbn [fst] in *.
  - eapply D; eassumption.
  - rewrite (F _ _ Ha) in S. discriminate.
  - rewrite same_text_sym, (F _ _ Hb) in S. discriminate.
  - reflexivity.
Qed.

Lemma hl_index_correct : forall (h : hlist T) s, hl_ok h -> distinct (hl_ents h) ->
  let r := hl_index ci h s in
  hl_ok (fst r) /\ hl_ents (fst r) = hl_ents h /\ snd r = sl_find ci (hl_ents h) s.
Proof.
  intros h s OK D. unfold hl_index.
  set (t := match hl_tab h with Some t => t | None => _ end).
  assert (TO : chains_ok (hl_ents h) t /\ chains_nodup t).
  { unfold t, hl_ok in *. destruct (hl_tab h); [assumption|apply hash_all_ok]. }
  destruct TO as (C & N). cbn [fst snd hl_ents]. split; [split; assumption|].
  split; [reflexivity|]. apply lookup_correct; assumption.
Qed.

Lemma unlink_In : forall n chain m, NoDup chain -> In m (unlink n chain) <-> In m chain /\ m <> n.
Proof.
  intros n chain m. induction chain as [| k chain IH]; intros ND; cbn [unlink In]; [tauto|].
  inversion ND as [| ? ? NI ND']; subst. destruct (Z.eqb_spec k n) as [->|N].
  - split; [intros I; split; [auto|intros ->; contradiction]|]. intros [[->|I] H]; [congruence|assumption].
  - cbn [In]. rewrite (IH ND'). split; [intros [->|[I H]]; auto|]. intros [[->|I] H]; auto.
Qed.

Lemma unlink_NoDup : forall n chain, NoDup chain -> NoDup (unlink n chain).
Proof.
  intros n chain. induction chain as [| k chain IH]; intros ND; cbn [unlink]; [constructor|].
  inversion ND as [| ? ? NI ND']; subst. destruct (k =? n); [assumption|].
  constructor; [|auto]. rewrite unlink_In by assumption. tauto.
Qed.

Lemma znth_set_text : forall (l : list (str * T)) n s e i, znth l n = Some e ->
  znth (set_text l n s) i = if i =? n then Some (s, snd e) else znth l i.
Proof.
  intros l n s e i E. unfold set_text. rewrite E. destruct (Z.eqb_spec i n) as [->|N].
  - apply znth_zset_eq. eapply znth_Some; eassumption.
  - apply znth_zset_neq. congruence.
Qed.

(** Renaming entry [n] to a text that no other entry has. *)
Lemma hl_rename_correct : forall (h : hlist T) n s e, hl_ok h -> distinct (hl_ents h) ->
  znth (hl_ents h) n = Some e ->
  (forall i e', i <> n -> znth (hl_ents h) i = Some e' -> same_text ci (fst e') s = false) ->
  let r := hl_rename ci h n s in
  hl_ok r /\ distinct (hl_ents r) /\ hl_ents r = set_text (hl_ents h) n s.
Proof.
  intros h n s e OK D E F. unfold hl_rename. rewrite E. cbv zeta.
  split; [|split; [|reflexivity]].
  - unfold hl_ok in *. destruct (hl_tab h) as [t|]; cbn [hl_tab hl_ents]; [|exact I].
    destruct OK as (C & N).
    destruct (Z.eqb_spec (hash_val ci (ht_size t) (fst e)) (hash_val ci (ht_size t) s)) as [HV|HV].
    + split; [|assumption]. intros hh m. rewrite (C hh m).
      split; intros (e' & E' & H).
      * destruct (Z.eq_dec m n) as [->|M].
        -- rewrite E in E'. injection E' as <-. exists (s, snd e). rewrite (znth_set_text _ _ _ e) by assumption.
           rewrite Z.eqb_refl. split; [reflexivity|]. cbn [fst]. congruence.
        -- exists e'. rewrite (znth_set_text _ _ _ e) by assumption. destruct (Z.eqb_spec m n); [contradiction|]. auto.
      * rewrite (znth_set_text _ _ _ e) in E' by assumption. destruct (Z.eqb_spec m n) as [->|M].
        -- injection E' as <-. exists e. cbn [fst] in H. split; [assumption|congruence].
        -- eauto.
    + split.
      * intros hh m. cbn [chain_cons ht_chain ht_size].
        set (u := if hh =? hash_val ci (ht_size t) (fst e) then unlink n (ht_chain t hh) else ht_chain t hh).
        assert (U : In m u <-> m <> n /\ In m (ht_chain t hh)).
        { unfold u. destruct (Z.eqb_spec hh (hash_val ci (ht_size t) (fst e))) as [->|X].
          - rewrite unlink_In by apply N. tauto.
          - split; [|tauto]. intros I0. split; [|assumption]. intros ->. apply C in I0.
            destruct I0 as (e' & E' & H'). rewrite E in E'. injection E' as <-. congruence. }
        assert (W : In m (if hh =? hash_val ci (ht_size t) s then n :: u else u) <->
                    (m = n /\ hh = hash_val ci (ht_size t) s) \/ In m u).
        { destruct (Z.eqb_spec hh (hash_val ci (ht_size t) s)); cbn [In].
          - intuition congruence.
          - intuition congruence. }
        rewrite W, U. split.
        -- intros [[-> ->]|[M I0]].
           ++ exists (s, snd e). rewrite (znth_set_text _ _ _ e), Z.eqb_refl by assumption. auto.
           ++ apply C in I0. destruct I0 as (e' & E' & H'). exists e'.
              rewrite (znth_set_text _ _ _ e) by assumption. destruct (Z.eqb_spec m n); [contradiction|]. auto.
        -- intros (e' & E' & H'). rewrite (znth_set_text _ _ _ e) in E' by assumption.
           destruct (Z.eqb_spec m n) as [->|M].
           ++ injection E' as <-. cbn [fst] in H'. left. auto.
           ++ right. split; [assumption|]. apply C. eauto.
      * intros hh. cbn [chain_cons ht_chain].
        assert (NU : NoDup (if hh =? hash_val ci (ht_size t) (fst e) then unlink n (ht_chain t hh) else ht_chain t hh)).
        { destruct (hh =? hash_val ci (ht_size t) (fst e)); [apply unlink_NoDup|]; apply N. }
        destruct (Z.eqb_spec hh (hash_val ci (ht_size t) s)) as [->|X]; [|assumption].
        constructor; [|assumption]. intros I0.
        destruct (Z.eqb_spec (hash_val ci (ht_size t) s) (hash_val ci (ht_size t) (fst e))); [congruence|].
        apply C in I0. destruct I0 as (e' & E' & H'). rewrite E in E'. injection E' as <-. congruence.
  - cbn [hl_ents]. intros i j a b Ha Hb S.
    rewrite (znth_set_text _ _ _ e) in Ha by assumption. rewrite (znth_set_text _ _ _ e) in Hb by assumption.
    destruct (Z.eqb_spec i n) as [->|Ni], (Z.eqb_spec j n) as [->|Nj].
    + reflexivity.
    + injection Ha as <-. cbn [fst] in S. rewrite same_text_sym, (F j b Nj Hb) in S. discriminate.
    + injection Hb as <-. cbn [fst] in S. rewrite (F i a Ni Ha) in S. discriminate.
    + eapply D; eassumption.
Qed.

End SHP.
