(** * Contents: reading the records of a symbol, in the writer's and the reader's terms

    What a value means, how a reader sees it, what the calls that read a symbol answer if
    the symbol has certain records; and the proof that they do. *)

From Coq Require Import String.
From Verif Require Import Base Prim Values FloatAcr Records LinkedData StrHash IntMap Strings AStream BufStream State
  FileImage ApiCore ApiFile ApiWrite ApiRead Api FileFacts BlockFacts StreamFacts OpenFacts DicInv WriteInv WriteSteps Journal WriteCalls WriteTrace
  Footprint SessInv FileFlow Sessions Vocab Reopen ReadFacts ReadRecs ReadLoops PropNames PropMeta Segment.
Open Scope Z_scope.
Open Scope list_scope.

(** ** Specification: values *)

(** The five special values are, in this order, UNDEF, NA, plus and minus infinity, EPS.
    A value is a bit pattern of 64 bits. *)
Inductive meaning := Special (k : nat) | Number (u : Z).
Definition plus_inf : Z := 2047 * 2^52.
Definition minus_inf : Z := 2^63 + plus_inf.
Definition minus_zero : Z := 2^63.
Definition is_nan (v : Z) : bool := plus_inf <? v mod 2^63.
Fixpoint place (v : Z) (l : list Z) : option nat :=
  match l with [] => None | x :: l' => if v =? x then Some O else option_map S (place v l') end.
(** What [v] means to one whose special values are [five]. *)
Definition means (five : list Z) (v : Z) : meaning :=
  match place v five with
  | Some k => Special k
  | None => if v =? minus_zero then Number 0 else if v =? plus_inf then Special 2 else if v =? minus_inf then Special 3
            else if is_nan v then Special 1 else Number v
  end.
Definition seen (five : list Z) (m : meaning) : Z := match m with Special k => nth k five 0 | Number u => u end.
(** The numbers from 10^301 on stand for acronyms. *)
Definition is_acronym (five : list Z) (v : Z) : bool := match means five v with Special _ => false | Number u => fleb SV_ACR u end.

(** The reader's special values, from the calls it has made. *)
Definition standard_values : list Z := [SV_UNDEF; SV_NA; SV_PINF; SV_MINF; SV_EPS].
Definition sets (c : call) (r : resp) (five : list Z) : list Z :=
  match c with
  | gdxSetSpecialValues vals => if r_code r =? 1 then firstn 5 vals else five
  | gdxSetReadSpecialValues vals => firstn 5 vals
  | gdxResetSpecialValues => standard_values
  | _ => five
  end.
Fixpoint reader_values (cs : list call) (rs : list resp) (five : list Z) : list Z :=
  match cs, rs with c :: cs', r :: rs' => reader_values cs' rs' (sets c r five) | _, _ => five end.

(** ** Specification: records *)

(** The position, from one, of the first index that differs; zero if none does. *)
Fixpoint change_at (prev keys : list Z) : Z :=
  match prev, keys with
  | p :: ps, k :: ks => if k =? p then (if change_at ps ks =? 0 then 0 else change_at ps ks + 1) else 1
  | _, _ => 0
  end.
(** For the first record of a symbol with indices it is 1. *)
Definition dim_frst (prev : option (list Z)) (keys : list Z) : Z :=
  match prev with None => (match keys with [] => 0 | _ => 1 end) | Some p => change_at p keys end.

(** The records, with the first changed position of each and the values as a reader sees
    them, a value [x] as [f x]. *)
Fixpoint as_read (f : Z -> Z) (prev : option (list Z)) (recs : list (list Z * list Z)) : list (Z * list Z * list Z) :=
  match recs with
  | [] => []
  | (k, v) :: r => (dim_frst prev k, k, List.map f v) :: as_read f (Some k) r
  end.
Definition raw_resp (t : Z * list Z * list Z) : resp := ret_iv 1 (fst (fst t) :: snd (fst t)) (snd t).

(** How many values a record of a symbol of this type has. *)
Definition values_per (typ : Z) : nat := if (typ =? dt_var) || (typ =? dt_equ) then 5 else 1.

(** ** Values *)

Definition tail_values : list Z := [d_zero; d_one; d_mone; d_half; d_two].

Lemma place_index : forall v l i, index_of v l i = option_map (fun k => i + Z.of_nat k) (place v l).
Proof.
  intros v. induction l as [|x l IH]; intros i; cbn [index_of place]; [reflexivity|]. destruct (v =? x); cbn; [f_equal; lia|].
  rewrite IH. destruct (place v l); cbn; [f_equal; lia|reflexivity].
Qed.
Lemma place_app : forall v a b, place v (a ++ b) = match place v a with Some k => Some k | None => option_map (fun k => (length a + k)%nat) (place v b) end.
Proof.
  intros v. induction a as [|x a IH]; intros b; cbn [app place length].
  - destruct (place v b); reflexivity.
  - destruct (v =? x); [reflexivity|]. rewrite IH. destruct (place v a); cbn; [reflexivity|]. destruct (place v b); reflexivity.
Qed.
Lemma place_nth : forall v l k, place v l = Some k -> (k < length l)%nat /\ nth k l 0 = v.
Proof.
  intros v. induction l as [|x l IH]; intros k; cbn [place]; [discriminate|]. destruct (Z.eqb_spec v x).
  - intros H. injection H as <-. cbn. split; [lia|congruence].
  - destruct (place v l) as [j|]; [|discriminate]. cbn. intros H. injection H as <-. destruct (IH j eq_refl). split; [lia|assumption].
Qed.
Lemma znth_nth : forall l k, (k < length l)%nat -> znth l (Z.of_nat k) = Some (nth k l 0).
Proof. intros l k H. unfold znth. destruct (Z.ltb_spec (Z.of_nat k) 0); [lia|]. rewrite Nat2Z.id. apply nth_error_nth'. exact H. Qed.

Lemma dblInfo_spec : forall v, u64_ok v -> dblInfo v =
  if v =? plus_inf then DBL_PINF else if v =? minus_inf then DBL_NINF else if is_nan v then DBL_NAN else DBL_FINITE.
Proof.
  intros v U. unfold u64_ok in U. unfold dblInfo, d_exp, d_mant, d_sign, is_nan, minus_inf, plus_inf.
  assert (E : v = 2^63 * (v / 2^63) + v mod 2^63) by (apply Z.div_mod; lia).
  assert (B1 : 0 <= v mod 2^63 < 2^63) by (apply Z.mod_pos_bound; lia).
  assert (B2 : 0 <= v / 2^63 < 2) by (split; [apply Z.div_pos; lia|apply Z.div_lt_upper_bound; lia]).
  set (s := v / 2^63) in *. set (w := v mod 2^63) in *.
  assert (E2 : w = 2^52 * (w / 2^52) + w mod 2^52) by (apply Z.div_mod; lia).
  assert (B3 : 0 <= w mod 2^52 < 2^52) by (apply Z.mod_pos_bound; lia).
  assert (B4 : 0 <= w / 2^52 < 2048) by (split; [apply Z.div_pos; lia|apply Z.div_lt_upper_bound; lia]).
  assert (X1 : (v / 2^52) mod 2048 = w / 2^52).
  { rewrite E. replace (2^63 * s + w) with (w + (2048 * s) * 2^52) by lia. rewrite Z.div_add by lia.
    replace (w / 2^52 + 2048 * s) with (w / 2^52 + s * 2048) by lia. rewrite Z.mod_add by lia. apply Z.mod_small. lia. }
  assert (X2 : v mod 2^52 = w mod 2^52).
  { rewrite E. replace (2^63 * s + w) with (w + (2048 * s) * 2^52) by lia. apply Z.mod_add. lia. }
  rewrite X1, X2. set (e := w / 2^52) in *. set (m := w mod 2^52) in *. clear X1 X2. clearbody s w e m.
  repeat match goal with
  | |- context [?a =? ?b] => destruct (Z.eqb_spec a b); try (exfalso; lia)
  | |- context [?a <=? ?b] => destruct (Z.leb_spec a b); try (exfalso; lia)
  | |- context [?a <? ?b] => destruct (Z.ltb_spec a b); try (exfalso; lia)
  end; reflexivity.
Qed.

Lemma znth_default : forall (five : list Z) k, length five = 5%nat -> (k < 5)%nat -> znth (five ++ tail_values) (Z.of_nat k) = Some (nth k five 0).
Proof. intros five k L K. rewrite znth_nth by (rewrite app_length; lia). rewrite app_nth1 by lia. reflexivity. Qed.
Lemma mark_shown : forall e l (five : list Z) k, e_rtab e = five ++ tail_values -> length five = 5%nat -> (k < 5)%nat ->
  shown e l (SMark (Z.of_nat k)) = nth k five 0.
Proof. intros e l five k R L K. unfold shown, sval_value, vm_count. destruct (Z.leb_spec 11 (Z.of_nat k)); [lia|]. rewrite R, znth_default by assumption. reflexivity. Qed.

Lemma value_back : forall e l wt rt v, u64_ok v -> length wt = 5%nat -> length rt = 5%nat -> e_rtab e = rt ++ tail_values -> is_acronym wt v = false ->
  shown e l (classify (wt ++ tail_values) v) = seen rt (means wt v) /\ plain (classify (wt ++ tail_values) v).
Proof.
  intros e l wt rt v U LW LR R A. unfold classify. rewrite place_index, place_app. unfold is_acronym, means in *.
  destruct (place v wt) as [k|] eqn:P.
  - apply place_nth in P. destruct P as [K _]. cbn [option_map seen plain]. rewrite Z.add_0_l. split; [|exact I]. apply mark_shown; [assumption|assumption|lia].
  - destruct (place v tail_values) as [k|] eqn:P2.
    + apply place_nth in P2. destruct P2 as [K N]. cbn [option_map plain]. split; [|exact I].
      assert (G : shown e l (SMark (0 + Z.of_nat (length wt + k))) = v).
      { cbn [length tail_values] in K. cbn [shown sval_value]. unfold vm_count. destruct (Z.leb_spec 11 (0 + Z.of_nat (length wt + k))); [lia|].
        rewrite R. rewrite Z.add_0_l, znth_nth by (rewrite app_length; cbn; lia). rewrite app_nth2 by lia.
        rewrite LW, LR. replace (5 + k - 5)%nat with k by lia. exact N. }
      rewrite G. cbn [length tail_values] in K. subst v. destruct k as [|[|[|[|[|k]]]]]; try (exfalso; lia); reflexivity.
    + cbn [option_map]. assert (V0 : v =? 0 = false) by (destruct (Z.eqb_spec v 0); [subst v; discriminate P2|reflexivity]). rewrite V0. cbn [orb].
      fold minus_zero. destruct (v =? minus_zero).
      * cbn [plain seen]. split; [|exact I]. cbn [shown sval_value]. change (vm_count <=? vm_zero) with false. cbv iota. rewrite R. unfold vm_zero. change 5 with (Z.of_nat 5).
        rewrite znth_nth by (rewrite app_length; cbn; lia). rewrite app_nth2 by lia. rewrite LR. reflexivity.
      * rewrite dblInfo_spec by exact U. destruct (v =? plus_inf); [|destruct (v =? minus_inf); [|destruct (is_nan v)]]; cbn [seen].
        -- split; [|exact I]. apply (mark_shown e l rt 2); try assumption; lia.
        -- split; [|exact I]. apply (mark_shown e l rt 3); try assumption; lia.
        -- split; [|exact I]. apply (mark_shown e l rt 1); try assumption; lia.
        -- cbn [shown plain]. rewrite A. auto.
Qed.

(** ** Tables *)

Lemma default_split : default_tab = standard_values ++ tail_values.
Proof. reflexivity. Qed.

Section Z.
Context (z : zlib).

Definition tabs (st : gst) (t rt : list Z) : Prop :=
  length t = 5%nat /\ length rt = 5%nat /\ e_tab (g_env st) = t ++ tail_values /\ e_rtab (g_env st) = rt ++ tail_values.

Lemma five_tail : forall vals l, (5 <= length vals)%nat -> length l = 5%nat -> firstn 5 vals ++ skipn 5 (l ++ tail_values) = firstn 5 vals ++ tail_values.
Proof. intros vals l _ L. rewrite skipn_app, L, skipn_all2 by lia. reflexivity. Qed.

Lemma tabs_step : forall c st r st' t rt, session_call c = true -> call_ok c -> exec z c st = Done (r, st') -> tabs st t rt ->
  exists t', tabs st' t' (sets c r rt).
Proof.
  intros c st r st' t rt SC OK E T. destruct (sets_values c) eqn:SV.
  - destruct T as (L1 & L2 & T1 & T2). destruct c; try discriminate SV; cbn [exec] in E.
    + unfold set_special in E. destruct (Nat.ltb_spec (length vals) 5) as [|L]; [discriminate|]. destruct (has_dup (firstn 5 vals)).
      * injection E as <- <-. cbn [sets r_code ret]. exists t. unfold tabs. repeat split; assumption.
      * injection E as <- <-. cbn [sets r_code ret]. exists (firstn 5 vals).
        assert (LL : length (firstn 5 vals) = 5%nat) by (rewrite firstn_length; lia).
        split; [exact LL|]. split; [exact LL|].
        assert (X : firstn 5 vals ++ skipn 5 (e_tab (g_env st)) = firstn 5 vals ++ tail_values) by (rewrite T1; apply five_tail; assumption).
        split; exact X.
    + unfold set_read_special in E. destruct (Nat.ltb_spec (length vals) 5) as [|L]; [discriminate|]. injection E as <- <-. exists t.
      split; [exact L1|]. split; [cbn [sets]; rewrite firstn_length; lia|]. split; [exact T1|]. cbn [sets].
      assert (X : firstn 5 vals ++ skipn 5 (e_rtab (g_env st)) = firstn 5 vals ++ tail_values) by (rewrite T2; apply five_tail; assumption). exact X.
    + injection E as <- <-. exists standard_values. repeat split.
  - exists t. replace (sets c r rt) with rt by (destruct c; try discriminate SV; reflexivity).
    pose proof (session_ok z (fun s => tabs s t rt) (fun a H => H) c st) as X. rewrite E in X. apply X; try assumption.
    intros a b Q A. destruct A; try exact Q.
    + destruct H as (_ & [H|[HA HB]] & _); [congruence|]. destruct Q as (Q1 & Q2 & Q3 & Q4). unfold tabs.
      change (g_env (upd_env f st0)) with (f (g_env st0)). rewrite HA, HB. auto.
    + unfold set_error. destruct (n =? 0); exact Q.
Qed.

Lemma tabs_then : forall cs rs a b t rt, then_calls z cs rs a b -> tabs a t rt -> exists t', tabs b t' (reader_values cs rs rt).
Proof.
  intros cs rs a b t rt [FA R]. revert rs a t rt R. induction cs as [|c cs IH]; intros rs a t rt R T.
  - cbn in R. injection R as <- <-. exists t. exact T.
  - destruct (run_cons _ _ _ _ _ _ R) as (r & s1 & rs' & E & R' & ->). inversion FA as [|? ? [F1 F2] FA']; subst.
    destruct (tabs_step _ _ _ _ _ _ F1 F2 E T) as (t' & T'). cbn [reader_values]. eapply IH; eassumption.
Qed.

(** The table of a writer. *)
Lemma writer_tab : forall name prod compr cs rs st, writes z name prod compr cs rs st ->
  length (firstn 5 (e_tab (g_env st))) = 5%nat /\ e_tab (g_env st) = firstn 5 (e_tab (g_env st)) ++ tail_values.
Proof.
  intros name prod compr cs rs st W. destruct (writes_start _ _ _ _ _ _ _ W) as (sta & F & R & _ & _ & T1 & T2).
  assert (T0 : tabs sta standard_values standard_values) by (repeat split; assumption).
  assert (TC : then_calls z cs rs sta st).
  { split; [|exact R]. eapply Forall_impl; [|exact F]. intros c [K1 K2]. split; [apply keeps_session; exact K1|exact K2]. }
  destruct (tabs_then _ _ _ _ _ _ TC T0) as (t & L & _ & E & _). rewrite E, firstn_app, L, Nat.sub_diag, firstn_O, app_nil_r, firstn_all2 by lia. auto.
Qed.

(** ** The records of a symbol in the file that is being read *)

Definition good_rec (dim : nat) (kv : list Z * list Z) : Prop := length (fst kv) = dim /\ Forall (fun k => 0 <= k) (fst kv) /\ Forall u64_ok (snd kv).
(** Symbol [n] of the file holds the records [recs], written with the special values [wt]. *)
Definition holds (st : gst) (n dim typ : Z) (wt : list Z) (recs : list (list Z * list Z)) : Prop :=
  length wt = 5%nat /\ Forall (good_rec (Z.to_nat dim)) recs /\ 0 <= dim <= 20 /\ 0 <= typ <= dt_equ /\
  exists F tab k nm sy, reads_file z F tab k st /\ znth tab (n - 1) = Some (nm, sy) /\ sy_dim sy = Z.to_nat dim /\ sy_type sy = typ /\
    block_at z (z_host z) F sy (List.map (fun kv => (fst kv, List.map (classify (wt ++ tail_values)) (snd kv))) recs).

Lemma holds_then : forall cs rs a b n dim typ wt recs, then_calls z cs rs a b -> holds a n dim typ wt recs -> holds b n dim typ wt recs.
Proof.
  intros cs rs a b n dim typ wt recs [FA R] (L & G & D & T & F & tab & k & nm & sy & Q & X). split; [exact L|]. split; [exact G|]. split; [exact D|].
  split; [exact T|]. exists F, tab, k, nm, sy. split; [|exact X]. eapply reads_during; [|exact Q]. split; [|split; [|eauto]].
  - apply forallb_forall. intros c I. rewrite Forall_forall in FA. apply (FA c I).
  - eapply Forall_impl; [|exact FA]. intros c [_ H]. exact H.
Qed.

Lemma dim_first_spec : forall prev keys, change_at prev keys = dim_first prev keys.
Proof.
  intros prev keys. unfold dim_first. revert keys. induction prev as [|p prev IH]; intros [|k keys]; cbn [change_at first_diff]; try reflexivity.
  rewrite Z.eqb_sym. rewrite Z.eqb_sym. destruct (k =? p); [|reflexivity]. rewrite IH. destruct (first_diff keys prev) as [i|]; cbn [option_map].
  - destruct (Z.eqb_spec (Z.of_nat (S i)) 0); lia.
  - reflexivity.
Qed.
Lemma dim_first_initial : forall keys, Forall (fun k => 0 <= k) keys -> dim_first (repeat INDEX_INITIAL (length keys)) keys = dim_frst None keys.
Proof.
  intros [|k keys] F; [reflexivity|]. inversion F; subst. unfold dim_first. cbn [length repeat first_diff dim_frst].
  destruct (Z.eqb_spec k INDEX_INITIAL) as [E|]; [unfold INDEX_INITIAL in E; lia|reflexivity].
Qed.

Definition store_rec (wt : list Z) (kv : list Z * list Z) : srec := (fst kv, List.map (classify (wt ++ tail_values)) (snd kv)).
Definition as_item (st : gst) (it : item) : Z * list Z * list Z := (fst it, shows st (snd it)).

(** How a reader whose object is [st] sees a value. *)
Definition sees (st : gst) (wt : list Z) (x : Z) : Z := shown (g_env st) (d_acros (g_dic st)) (classify (wt ++ tail_values) x).
Lemma sees_plain : forall st t rt wt x, length wt = 5%nat -> tabs st t rt -> u64_ok x -> is_acronym wt x = false ->
  sees st wt x = seen rt (means wt x) /\ plain (classify (wt ++ tail_values) x).
Proof. intros st t rt wt x L (T1 & T2 & T3 & T4) U A. apply value_back; assumption. Qed.

Definition no_acronyms (wt : list Z) (recs : list (list Z * list Z)) : Prop := Forall (fun kv => Forall (fun x => is_acronym wt x = false) (snd kv)) recs.

Lemma items_seen : forall st wt dim recs prev, Forall (good_rec dim) recs ->
  List.map (as_item st) (List.map stored (with_first (match prev with None => repeat INDEX_INITIAL dim | Some p => p end) (List.map (store_rec wt) recs)))
    = as_read (sees st wt) prev recs.
Proof.
  intros st wt dim recs. induction recs as [|[k v] recs IH]; intros prev G; [reflexivity|].
  inversion G as [|? ? (G1 & G2 & G3) G']; subst. cbn [fst snd] in *.
  pose proof (IH (Some k) G') as I1. cbn [List.map with_first store_rec fst snd as_read].
  f_equal; [|exact I1]. unfold as_item, stored. cbn [fst snd]. unfold shows, shown_all. rewrite map_map. do 2 f_equal.
  destruct prev as [p|]; [symmetry; apply dim_first_spec|]. apply dim_first_initial. exact G2.
Qed.
Lemma items_plain : forall st t rt wt dim recs prev, length wt = 5%nat -> tabs st t rt -> Forall (good_rec dim) recs -> no_acronyms wt recs ->
  Forall (fun it => plainly (snd it)) (List.map stored (with_first prev (List.map (store_rec wt) recs))).
Proof.
  intros st t rt wt dim recs. induction recs as [|[k v] recs IH]; intros prev L T G A; [constructor|].
  inversion G as [|? ? (G1 & G2 & G3) G']; inversion A as [|? ? A1 A']; subst. cbn [List.map with_first store_rec fst snd]. constructor; [|apply IH; assumption].
  cbn [stored snd plainly] in *. apply Forall_forall. intros sv I. apply in_map_iff in I. destruct I as (x & <- & I).
  rewrite Forall_forall in A1, G3. apply (sees_plain st t rt wt x L T (G3 x I) (A1 x I)).
Qed.

Definition some_record (dim : Z) (recs : list (list Z * list Z)) : Prop := dim <> 0 \/ recs <> [].

Lemma holds_items : forall st t rt n dim typ wt recs, holds st n dim typ wt recs -> tabs st t rt ->
  no_acronyms wt recs \/ e_nextacr (g_env st) <= 0 -> some_record dim recs ->
  exists F tab k items, reads_file z F tab k st /\ has_items z F tab k n (Z.to_nat dim) items /\
    forall s, g_env s = g_env st -> d_acros (g_dic s) = d_acros (g_dic st) -> List.map (as_item s) items = as_read (sees st wt) None recs /\ quiet items s.
Proof.
  intros st t rt n dim typ wt recs (L & G & D & T & F & tab & k & nm & sy & Q & ZN & SD & ST & B) TB A SR.
  set (items := List.map stored (with_first (repeat INDEX_INITIAL (Z.to_nat dim)) (List.map (store_rec wt) recs))).
  exists F, tab, k, items. split; [exact Q|]. split.
  - right. exists nm, sy, (List.map (store_rec wt) recs). split; [exact ZN|]. split; [rewrite ST; unfold dt_alias, dt_equ in *; lia|]. split; [lia|]. split; [exact B|].
    split; [symmetry; exact SD|]. unfold items, items_of. rewrite SD.
    destruct (Nat.eqb_spec (Z.to_nat dim) 0) as [E|]; [|reflexivity]. destruct SR as [SR|SR]; [lia|]. destruct recs; [contradiction|]. reflexivity.
  - intros s ES AS. split.
    + replace (sees st wt) with (sees s wt) by (unfold sees; rewrite ES, AS; reflexivity). exact (items_seen s wt (Z.to_nat dim) recs None G).
    + destruct A as [A|A]; [right|left; rewrite ES; exact A]. eapply items_plain; try eassumption. 
Qed.

(** ** The reading calls *)

Lemma raw_start_answered : forall F tab k n st r s1, reads_file z F tab k st -> exec z (gdxDataReadRawStart n) st = Done (r, s1) -> r_code r = 1 ->
  exists st1, reads_file z F tab k st1 /\ g_mode st1 = fr_init /\ exec z (gdxDataReadRawStart n) st1 = Done (r, s1) /\ g_env st1 = g_env st /\
    d_acros (g_dic st1) = d_acros (g_dic st).
Proof.
  intros F tab k n st r s1 Q E C. cbn [exec] in *. unfold read_raw_start, read_start in *.
  destruct (prepare_symbol_read z n unmapped fr_raw_data st) as [[c s]|] eqn:P; [|discriminate]. cbn [obind] in E. injection E as <- <-.
  cbn [r_code ret_i] in C. destruct (Z.leb_spec 0 c) as [LE|]; [|discriminate].
  destruct (start_answered z _ _ _ _ _ _ _ _ _ Q P LE) as (st1 & Q1 & M1 & P1 & E1 & E2 & _). exists st1. rewrite P1.
  cbn [obind]. rewrite ?(proj2 (Z.leb_le 0 c) LE). auto.
Qed.

(** Every record, one after the other: the symbol [n] as a raw read returns it. *)
Definition reads_all (st : gst) (n : Z) (l : list (Z * list Z * list Z)) : Prop :=
  exists s1 s2 s3, exec z (gdxDataReadRawStart n) st = Done (ret_i 1 [zlen l], s1) /\
    run z (repeat gdxDataReadRaw (length l)) s1 = Done (List.map raw_resp l, s2) /\ exec z gdxDataReadRaw s2 = Done (ret 0, s3).

Lemma as_read_length : forall f prev recs, length (as_read f prev recs) = length recs.
Proof. intros f prev recs. revert prev. induction recs as [|[k v] recs IH]; intros o; cbn; [reflexivity|]. rewrite IH. reflexivity. Qed.

Lemma items_read : forall F tab k st n dim items, reads_file z F tab k st -> g_mode st = fr_init -> has_items z F tab k n dim items -> quiet items st ->
  reads_all st n (List.map (as_item st) items).
Proof.
  intros F tab k st n dim items Q M HI QI. destruct (raw_reads_ok z F tab k st n _ items Q M HI QI) as (sa & EA & sb & EB & sc & EC & _).
  exists sa, sb, sc. unfold zlen. rewrite map_length. split; [exact EA|]. split; [rewrite EB, map_map; reflexivity|exact EC].
Qed.

Lemma raw_back : forall st t rt n dim typ wt recs r s1, holds st n dim typ wt recs -> tabs st t rt ->
  no_acronyms wt recs \/ e_nextacr (g_env st) <= 0 -> some_record dim recs ->
  exec z (gdxDataReadRawStart n) st = Done (r, s1) -> r_code r = 1 -> reads_all st n (as_read (sees st wt) None recs).
Proof.
  intros st t rt n dim typ wt recs r s1 H TB A SR E C.
  destruct (holds_items _ _ _ _ _ _ _ _ H TB A SR) as (F & tab & k & items & Q & HI & IT).
  destruct (raw_start_answered _ _ _ _ _ _ _ Q E C) as (st1 & Q1 & M1 & E1 & EE & EA).
  destruct (IT st1 EE EA) as [I1 I2]. destruct (items_read _ _ _ _ _ _ _ Q1 M1 HI I2) as (sa & sb & sc & R1 & R2 & R3). rewrite I1 in *.
  exists sa, sb, sc. split; [|auto]. rewrite <- R1, E1. exact E.
Qed.
Lemma raw_back_ready : forall st t rt n dim typ wt recs, holds st n dim typ wt recs -> tabs st t rt ->
  no_acronyms wt recs \/ e_nextacr (g_env st) <= 0 -> some_record dim recs -> g_mode st = fr_init -> reads_all st n (as_read (sees st wt) None recs).
Proof.
  intros st t rt n dim typ wt recs H TB A SR M.
  destruct (holds_items _ _ _ _ _ _ _ _ H TB A SR) as (F & tab & k & items & Q & HI & IT). destruct (IT st eq_refl eq_refl) as [<- I2].
  eapply items_read; eassumption.
Qed.
End Z.

(** The reader does not number acronyms. *)
Definition no_numbering (z : zlib) (st : gst) : Prop := exists k, k <= 0 /\ answers z st (gdxAcronymNextNr (-1)) (ret k).
Lemma no_numbering_env : forall z st, no_numbering z st -> e_nextacr (g_env st) <= 0.
Proof. intros z st (k & K & st' & H). cbn [exec] in H. unfold acronym_next_nr in H. injection H as E _. lia. Qed.

(** ** Raw reads are functions of the object *)

Lemma raw_resp_inj : forall a b, List.map raw_resp a = List.map raw_resp b -> a = b.
Proof.
  induction a as [|[[f k] v] a IH]; intros [|[[f' k'] v'] b] H; try discriminate; [reflexivity|]. cbn [List.map] in H. injection H as -> -> -> H.
  f_equal. apply IH. exact H.
Qed.
Lemma reads_all_unique : forall z st n l l', reads_all z st n l -> reads_all z st n l' -> l = l'.
Proof.
  intros z st n l l' (s1 & s2 & s3 & A & B & C) (t1 & t2 & t3 & A' & B' & C'). rewrite A in A'. injection A' as EL <-.
  apply raw_resp_inj. unfold zlen in EL. assert (E : length l = length l') by lia. rewrite E in B. rewrite B in B'. injection B' as -> _. reflexivity.
Qed.
