(** * What opening says about any file: C48 *)

From Coq Require Import String.
From Verif Require Import Base Prim Values Records StrHash IntMap Strings AStream BufStream State FileImage ApiCore ApiFile Api
  FileFacts StreamFacts FileFlow Footprint Vocab Cases.
Open Scope Z_scope.
Open Scope list_scope.

(** ** Specification: the format of a file, read from the front

    [r] is the answer to the call that opens the file.  At each place where something is
    required, either it is there and one goes on, or it is not and the answer is the error
    of this place. *)

Definition fails (e : Z) (r : resp) : Prop := r = ret_i 0 [e].

(** A string: a byte with the length, and the characters. *)
Definition a_string (b : list Z) : Prop := exists n s, b = n :: s /\ length s = Z.to_nat n.
(** A number of four or eight bytes. *)
Definition an_int (bo : border) (v : Z) (b : list Z) : Prop := length b = 4%nat /\ v = signed 32 (le_val (swp (bo_i bo) b)).
Definition a_long (bo : border) (v : Z) (b : list Z) : Prop := length b = 8%nat /\ v = signed 64 (le_val (swp (bo_i bo) b)).
(** [n] pieces, one after the other. *)
Definition pieces (P : list Z -> Prop) (n : Z) (b : list Z) : Prop := exists bs, b = List.concat bs /\ length bs = Z.to_nat n /\ Forall P bs.
(** The number of pieces, then the pieces. *)
Definition counted (bo : border) (P : list Z -> Prop) (b : list Z) : Prop := exists n c p, b = c ++ p /\ an_int bo n c /\ pieces P n p.

(** The entry of a symbol with dimension [dim] in a file of version [ver]. *)
Definition symbol_entry (bo : border) (ver : Z) (dim : nat) (b : list Z) : Prop :=
  exists name pos d typ info count errs text expl comp flag doms ncom coms,
    b = name ++ pos ++ d ++ [typ] ++ info ++ count ++ errs ++ [text] ++ expl ++ comp ++ flag ++ doms ++ ncom ++ coms /\
    a_string name /\ length pos = (if ver <=? 5 then 4%nat else 8%nat) /\ an_int bo (Z.of_nat dim) d /\ (dim <= 20)%nat /\
    length info = 4%nat /\ length count = 4%nat /\ length errs = 4%nat /\ a_string expl /\
    length comp = (if 5 <? ver then 1%nat else 0%nat) /\
    (if 7 <=? ver then exists f n, flag = [f] /\ length doms = (if f =? 0 then 0%nat else (4 * dim)%nat) /\ an_int bo n ncom /\ pieces a_string n coms
     else flag = [] /\ doms = [] /\ ncom = [] /\ coms = []).
Definition symbol_entries (bo : border) (ver : Z) (dims : list nat) (b : list Z) : Prop :=
  exists c bs, b = c ++ List.concat bs /\ (exists n, an_int bo n c /\ length bs = Z.to_nat n) /\ Forall2 (symbol_entry bo ver) dims bs.
(** The entry of an acronym. *)
Definition acronym_entry (bo : border) (b : list Z) : Prop := exists n t m, b = n ++ t ++ m /\ a_string n /\ a_string t /\ length m = 4%nat.
(** The domain names of the symbols: the number of a symbol, and one number for each of its
    dimensions; the end is a number that is not positive. *)
Inductive domain_entries (bo : border) (dims : list nat) : list Z -> Prop :=
| de_end : forall n b, an_int bo n b -> n <= 0 -> domain_entries bo dims b
| de_next : forall n d b ks b', an_int bo n b -> 0 < n -> znth dims (n - 1) = Some d -> length ks = (4 * d)%nat -> domain_entries bo dims b' -> domain_entries bo dims (b ++ ks ++ b').

(** The mark is next in [l] and [K] holds of what follows it, or the answer is [e]. *)
Definition mark_next (mark : str) (e : Z) (r : resp) (l : list Z) (K : list Z -> Prop) : Prop :=
  (exists l', l = enc_str mark ++ l' /\ K l') \/ ((forall l', l <> enc_str mark ++ l') /\ fails e r).
(** Something of the form [P] is next, and [K] holds of what follows it. *)
Definition then_next (P : list Z -> Prop) (l : list Z) (K : list Z -> Prop) : Prop := exists b l', l = b ++ l' /\ P b /\ K l'.

(** What one sees of the file [F] from position [p] on. *)
Definition seen (z : zlib) (comp : bool) (F : list Z) (p : Z) : list Z := unphys z comp (pread F p).

Section Format.
Context (z : zlib) (F : list Z) (texts : bool) (r : resp).

Definition domain_section (bo : border) (ver : Z) (comp : bool) (m : major) (dims : list nat) (K : Prop) : Prop :=
  if (7 <=? ver) && negb (mj_doms m =? 0) then
    0 <= mj_doms m /\
    mark_next MARK_DOMS ERR_OPEN_DOMSMARKER1 r (seen z comp F (mj_doms m)) (fun l =>
    then_next (counted bo a_string) l (fun l =>
    mark_next MARK_DOMS ERR_OPEN_DOMSMARKER2 r l (fun l =>
    then_next (domain_entries bo dims) l (fun l =>
    mark_next MARK_DOMS ERR_OPEN_DOMSMARKER3 r l (fun _ => K)))))
  else K.
Definition acronym_section (bo : border) (ver : Z) (comp : bool) (m : major) (K : Prop) : Prop :=
  if 7 <=? ver then
    0 <= mj_acro m /\
    mark_next MARK_ACRO ERR_OPEN_ACROMARKER1 r (seen z comp F (mj_acro m)) (fun l =>
    then_next (counted bo (acronym_entry bo)) l (fun l =>
    mark_next MARK_ACRO ERR_OPEN_ACROMARKER2 r l (fun _ => K)))
  else K.
Definition text_section (bo : border) (comp : bool) (m : major) (K : Prop) : Prop :=
  if texts then
    0 <= mj_text m /\
    mark_next MARK_SETT ERR_OPEN_TEXTMARKER1 r (seen z comp F (mj_text m)) (fun l =>
    then_next (counted bo a_string) l (fun l =>
    mark_next MARK_SETT ERR_OPEN_TEXTMARKER2 r l (fun _ => K)))
  else K.
(** Files of the year 2001 count one label too many. *)
Definition label_section (bo : border) (comp old : bool) (m : major) (K : Prop) : Prop :=
  0 <= mj_uel m /\
  mark_next MARK_UEL ERR_OPEN_UELMARKER1 r (seen z comp F (mj_uel m)) (fun l =>
  then_next (fun b => exists n c p, b = c ++ p /\ an_int bo n c /\ pieces a_string (if old then n - 1 else n) p) l (fun l =>
  mark_next MARK_UEL ERR_OPEN_UELMARKER2 r l (fun _ => K))).
Definition symbol_section (bo : border) (ver : Z) (comp : bool) (m : major) (K : list nat -> Prop) : Prop :=
  0 <= mj_symb m /\
  mark_next MARK_SYMB ERR_OPEN_SYMBOLMARKER1 r (seen z comp F (mj_symb m)) (fun l =>
  exists dims, then_next (symbol_entries bo ver dims) l (fun l =>
  mark_next MARK_SYMB ERR_OPEN_SYMBOLMARKER2 r l (fun _ => K dims))).
(** The positions of the sections; older files have fewer and shorter ones. *)
Definition positions (bo : border) (ver : Z) (m : major) (b : list Z) : Prop :=
  if ver <=? 5 then exists b1 b2 b3 b4, b = b1 ++ b2 ++ b3 ++ b4 /\ an_int bo (mj_symb m) b1 /\ an_int bo (mj_uel m) b2 /\ an_int bo (mj_text m) b3 /\ an_int bo (mj_nwp m) b4
  else exists b1 b2 b3 b4, b = b1 ++ b2 ++ b3 ++ b4 /\ a_long bo (mj_symb m) b1 /\ a_long bo (mj_uel m) b2 /\ a_long bo (mj_text m) b3 /\
    if 7 <=? ver then exists c1 c2 c3, b4 = c1 ++ c2 ++ c3 /\ a_long bo (mj_acro m) c1 /\ a_long bo (mj_nwp m) c2 /\ a_long bo (mj_doms m) c3 else b4 = [].

(** The whole file. *)
Definition format : Prop :=
  ((forall bo l, F <> preamble bo ++ l) /\ fails ERR_BADDATAFORMAT r) \/
  exists bo b l, F = preamble bo ++ b :: l /\
  ((b <> 123 /\ fails ERR_OPEN_FILEHEADER r) \/ b = 123 /\
  (((forall s l', l = enc_str s ++ l' -> upper s <> s2z "GAMSGDX") /\ fails ERR_OPEN_FILEMARKER r) \/
  exists id vb ver l1, l = enc_str id ++ vb ++ l1 /\ upper id = s2z "GAMSGDX" /\ an_int bo ver vb /\
  ((7 < ver /\ fails ERR_OPEN_FILEVERSION r) \/ ver <= 7 /\
  exists cb comp sb sysid prod mb boi l2, l1 = cb ++ sb ++ prod ++ mb ++ l2 /\ (if ver <=? 5 then cb = [] /\ comp = 0 else an_int bo comp cb) /\
    sb = zlen sysid :: sysid /\ a_string prod /\ an_int bo boi mb /\
  ((boi <> 19510624 /\ fails ERR_OPEN_BOI r) \/ boi = 19510624 /\
  exists m, then_next (positions bo ver m) l2 (fun _ =>
  symbol_section bo ver (0 <? comp) m (fun dims =>
  label_section bo (0 <? comp) (is_2001 sysid) m (
  text_section bo (0 <? comp) m (
  acronym_section bo ver (0 <? comp) m (
  domain_section bo ver (0 <? comp) m dims (
  r = ret_i 1 [0])))))))))).
End Format.

(** ** The parsers of the model *)

Lemma pbind_inv : forall {A B} (p : parser A) (f : A -> parser B) l b l', pbind p f l = Some (b, l') -> exists a l1, p l = Some (a, l1) /\ f a l1 = Some (b, l').
Proof. intros A B p f l b l' H. unfold pbind in H. destruct (p l) as [[a l1]|] eqn:E; [|discriminate]. exists a, l1. auto. Qed.
Lemma ptake_inv : forall n l x r, ptake n l = Some (x, r) -> l = x ++ r /\ length x = n.
Proof.
  induction n as [|n IH]; intros l x r H; cbn [ptake] in H.
  - injection H as <- <-. auto.
  - destruct l as [|b l]; [discriminate|]. destruct (ptake n l) as [[y r']|] eqn:E; [|discriminate]. injection H as <- <-. destruct (IH _ _ _ E) as [-> <-]. auto.
Qed.
Lemma p_int_inv : forall bo l v r, p_int bo l = Some (v, r) -> exists b, l = b ++ r /\ an_int bo v b.
Proof. intros bo l v r H. apply pbind_inv in H. destruct H as (b & l1 & E & H). injection H as <- <-. apply ptake_inv in E. destruct E as [-> L]. exists b. split; [reflexivity|]. split; [exact L|reflexivity]. Qed.
Lemma p_i64_inv : forall bo l v r, p_i64 bo l = Some (v, r) -> exists b, l = b ++ r /\ a_long bo v b.
Proof. intros bo l v r H. apply pbind_inv in H. destruct H as (b & l1 & E & H). injection H as <- <-. apply ptake_inv in E. destruct E as [-> L]. exists b. split; [reflexivity|]. split; [exact L|reflexivity]. Qed.
Lemma p_byte_inv : forall l v r, p_byte l = Some (v, r) -> l = v :: r.
Proof. intros [|b l] v r H; [discriminate|]. injection H as <- <-. reflexivity. Qed.
Lemma p_sstr_inv : forall l s r, p_sstr l = Some (s, r) -> exists b, l = b ++ r /\ a_string b.
Proof.
  intros [|n l] s r H; [discriminate|]. cbn [p_sstr] in H. destruct (ptake (Z.to_nat n) l) as [[x r']|] eqn:E; [|discriminate]. injection H as _ <-.
  apply ptake_inv in E. destruct E as [-> L]. exists (n :: x). split; [reflexivity|]. exists n, x. auto.
Qed.
Lemma prepeat_inv : forall {A} (p : parser A) (P : A -> list Z -> Prop), (forall a l r, p l = Some (a, r) -> exists b, l = b ++ r /\ P a b) ->
  forall n l xs r, prepeat n p l = Some (xs, r) -> exists bs, l = List.concat bs ++ r /\ Forall2 P xs bs /\ length xs = n.
Proof.
  intros A p P H. induction n as [|n IH]; intros l xs r E; cbn [prepeat] in E.
  - injection E as <- <-. exists []. auto.
  - apply pbind_inv in E. destruct E as (a & l1 & E1 & E). apply pbind_inv in E. destruct E as (ys & l2 & E2 & E). injection E as <- <-.
    destruct (H _ _ _ E1) as (b & -> & PB). destruct (IH _ _ _ E2) as (bs & -> & F & L). exists (b :: bs). cbn [List.concat length]. rewrite <- app_assoc. split; [reflexivity|]. split; [constructor; assumption|congruence].
Qed.
Lemma pieces_inv : forall {A} (p : parser A) (P : list Z -> Prop), (forall a l r, p l = Some (a, r) -> exists b, l = b ++ r /\ P b) ->
  forall n l xs r, prepeat (Z.to_nat n) p l = Some (xs, r) -> exists b, l = b ++ r /\ pieces P n b.
Proof.
  intros A p P H n l xs r E. destruct (prepeat_inv p (fun _ => P) H _ _ _ _ E) as (bs & -> & F & L). exists (List.concat bs). split; [reflexivity|].
  exists bs. split; [reflexivity|]. pose proof (Forall2_length _ _ _ F). split; [lia|]. clear - F. induction F; constructor; assumption.
Qed.
Lemma counted_inv : forall {A} bo (p : parser A) (P : list Z -> Prop), (forall a l r, p l = Some (a, r) -> exists b, l = b ++ r /\ P b) ->
  forall l xs r, p_counted bo p l = Some (xs, r) -> then_next (counted bo P) l (fun l' => l' = r).
Proof.
  intros A bo p P H l xs r E. apply pbind_inv in E. destruct E as (n & l1 & E1 & E). apply p_int_inv in E1. destruct E1 as (c & -> & I). destruct (pieces_inv p P H _ _ _ _ E) as (b & -> & PB).
  exists (c ++ b), r. rewrite <- app_assoc. split; [reflexivity|]. split; [|reflexivity]. exists n, c, b. auto.
Qed.
Lemma ints_inv : forall bo n l xs r, p_ints bo n l = Some (xs, r) -> exists b, l = b ++ r /\ length b = (4 * n)%nat.
Proof.
  intros bo n l xs r E. destruct (prepeat_inv (p_int bo) (fun _ b => length b = 4%nat)) with (n := n) (l := l) (xs := xs) (r := r) as (bs & -> & F & L); [|exact E|].
  - intros a l0 r0 H. apply p_int_inv in H. destruct H as (b & -> & H & _). eauto.
  - exists (List.concat bs). split; [reflexivity|]. subst n. clear - F. induction F as [|x b xs bs H F IH]; [reflexivity|]. cbn [List.concat length]. rewrite app_length, IH, H. lia.
Qed.
Lemma p_acro_inv : forall bo a l r, p_acro bo l = Some (a, r) -> exists b, l = b ++ r /\ acronym_entry bo b.
Proof.
  intros bo a l r H. unfold p_acro in H. apply pbind_inv in H. destruct H as (n & l1 & E1 & H). apply pbind_inv in H. destruct H as (t & l2 & E2 & H). apply pbind_inv in H. destruct H as (m & l3 & E3 & H). injection H as _ <-.
  apply p_sstr_inv in E1, E2. apply p_int_inv in E3. destruct E1 as (b1 & -> & S1), E2 as (b2 & -> & S2), E3 as (b3 & -> & I3 & _).
  exists (b1 ++ b2 ++ b3). rewrite <- !app_assoc. split; [reflexivity|]. exists b1, b2, b3. auto.
Qed.
Lemma p_entries_inv : forall bo dims fuel l es r, p_entries bo dims fuel l = Some (es, r) -> exists b, l = b ++ r /\ domain_entries bo dims b.
Proof.
  intros bo dims. induction fuel as [|k IH]; intros l es r H; [discriminate|]. cbn [p_entries] in H. apply pbind_inv in H. destruct H as (n & l1 & E1 & H). apply p_int_inv in E1. destruct E1 as (b & -> & I).
  destruct (Z.leb_spec n 0).
  - injection H as <- <-. exists b. split; [reflexivity|]. eapply de_end; eassumption.
  - destruct (znth dims (n - 1)) as [d|] eqn:ZD; [|discriminate]. apply pbind_inv in H. destruct H as (ds & l2 & E2 & H). apply pbind_inv in H. destruct H as (es' & l3 & E3 & H). injection H as <- <-.
    apply ints_inv in E2. destruct E2 as (ks & -> & L). destruct (IH _ _ _ E3) as (b' & -> & D). exists (b ++ ks ++ b'). rewrite <- !app_assoc. split; [reflexivity|]. eapply de_next; eassumption.
Qed.
Lemma p_sym_inv : forall bo ver e l r, p_sym bo ver l = Some (e, r) -> exists b, l = b ++ r /\ symbol_entry bo ver (sy_dim (snd e)) b.
Proof.
  intros bo ver e l r H. unfold p_sym in H.
  do 11 (apply pbind_inv in H; let a := fresh "a" in let l := fresh "l" in let E := fresh "E" in destruct H as (a & l & E & H)).
  destruct ((0 <=? a1) && (a1 <=? 20)) eqn:D; [|discriminate]. apply andb_prop in D. destruct D as [D1 D2]. apply Z.leb_le in D1, D2.
  do 3 (apply pbind_inv in H; let a := fresh "a" in let l := fresh "l" in let E := fresh "E" in destruct H as (a & l & E & H)). injection H as <- ->. cbn [snd sy_dim].
  apply p_sstr_inv in E, E7. apply p_byte_inv in E2, E6. apply p_int_inv in E1, E3, E4, E5.
  destruct E as (b0 & -> & S0). subst. destruct E1 as (b2 & -> & I2), E3 as (b4 & -> & I4 & _), E4 as (b5 & -> & I5 & _), E5 as (b6 & -> & I6 & _). subst.
  destruct E7 as (b8 & -> & S8).
  assert (X0 : exists p, l0 = p ++ (b2 ++ a2 :: b4 ++ b5 ++ b6 ++ a6 :: b8 ++ l8) /\ length p = (if ver <=? 5 then 4%nat else 8%nat)).
  { destruct (ver <=? 5); [apply p_int_inv in E0; destruct E0 as (p & -> & L & _)|apply p_i64_inv in E0; destruct E0 as (p & -> & L & _)]; exists p; auto. }
  assert (X9 : exists c, l8 = c ++ l9 /\ length c = (if 5 <? ver then 1%nat else 0%nat)).
  { destruct (5 <? ver); [apply p_byte_inv in E8; exists [a8]; auto|injection E8 as <- <-; exists []; auto]. }
  assert (Y : exists flag doms ncom coms, l9 = flag ++ doms ++ ncom ++ coms ++ r /\
    if 7 <=? ver then exists f n, flag = [f] /\ length doms = (if f =? 0 then 0%nat else (4 * Z.to_nat a1)%nat) /\ an_int bo n ncom /\ pieces a_string n coms
    else flag = [] /\ doms = [] /\ ncom = [] /\ coms = []).
  { destruct (7 <=? ver) eqn:V.
    - apply p_byte_inv in E9. subst l9. apply p_int_inv in E11. destruct E11 as (nc & -> & IN). destruct (pieces_inv p_sstr a_string) with (n := a11) (l := l12) (xs := a12) (r := r) as (cs & -> & PC); [intros ? ? ? Q; apply p_sstr_inv in Q; exact Q|exact E12|].
      destruct (a9 =? 0) eqn:A9.
      + injection E10 as _ E10. subst. exists [a9], [], nc, cs. split; [reflexivity|]. exists a9, a11. rewrite A9. auto.
      + apply pbind_inv in E10. destruct E10 as (ds & l13 & E13 & E10). injection E10 as _ E10. subst l13. apply ints_inv in E13. destruct E13 as (db & -> & LD).
        exists [a9], db, nc, cs. split; [reflexivity|]. exists a9, a11. rewrite A9. auto.
    - injection E9 as <- E9. cbn in E10. injection E10 as _ E10. injection E11 as <- E11. cbn in E12. injection E12 as _ E12. subst. exists [], [], [], []. auto. }
  destruct X0 as (p & X0 & LP), X9 as (c & X9 & LC), Y as (flag & doms & ncom & coms & Y & FL). subst.
  exists (b0 ++ p ++ b2 ++ [a2] ++ b4 ++ b5 ++ b6 ++ [a6] ++ b8 ++ c ++ flag ++ doms ++ ncom ++ coms). split; [rewrite <- !app_assoc; reflexivity|].
  exists b0, p, b2, a2, b4, b5, b6, a6, b8, c, flag, doms, ncom, coms. rewrite Z2Nat.id by lia. split; [reflexivity|]. repeat (split; [first [assumption|lia]|]). exact FL.
Qed.
Lemma p_syms_inv : forall bo ver l es r, p_counted bo (p_sym bo ver) l = Some (es, r) -> then_next (symbol_entries bo ver (List.map (fun e => sy_dim (snd e)) es)) l (fun l' => l' = r).
Proof.
  intros bo ver l es r E. apply pbind_inv in E. destruct E as (n & l1 & E1 & E). apply p_int_inv in E1. destruct E1 as (c & -> & I).
  destruct (prepeat_inv (p_sym bo ver) (fun e b => symbol_entry bo ver (sy_dim (snd e)) b) (p_sym_inv bo ver) _ _ _ _ E) as (bs & -> & F & L).
  exists (c ++ List.concat bs), r. rewrite <- app_assoc. split; [reflexivity|]. split; [|reflexivity]. exists c, bs. split; [reflexivity|]. split; [exists n; split; [exact I|]; pose proof (Forall2_length _ _ _ F); lia|].
  clear - F. induction F; constructor; assumption.
Qed.
Lemma p_major_inv : forall bo ver nwp l m r, p_major bo ver nwp l = Some (m, r) -> then_next (positions bo ver m) l (fun l' => l' = r).
Proof.
  intros bo ver nwp l m r H. unfold p_major in H. unfold then_next, positions. destruct (ver <=? 5).
  - do 4 (apply pbind_inv in H; let a := fresh "a" in let l := fresh "l" in let E := fresh "E" in destruct H as (a & l & E & H)). injection H as <- <-.
    apply p_int_inv in E, E0, E1, E2. destruct E as (b1 & -> & I1), E0 as (b2 & -> & I2), E1 as (b3 & -> & I3), E2 as (b4 & -> & I4).
    exists (b1 ++ b2 ++ b3 ++ b4), l3. rewrite <- !app_assoc. split; [reflexivity|]. split; [|reflexivity]. exists b1, b2, b3, b4. auto.
  - do 3 (apply pbind_inv in H; let a := fresh "a" in let l := fresh "l" in let E := fresh "E" in destruct H as (a & l & E & H)).
    apply p_i64_inv in E, E0, E1. destruct E as (b1 & -> & I1), E0 as (b2 & -> & I2), E1 as (b3 & -> & I3). destruct (7 <=? ver).
    + do 3 (apply pbind_inv in H; let a := fresh "a" in let l := fresh "l" in let E := fresh "E" in destruct H as (a & l & E & H)). injection H as <- <-.
      apply p_i64_inv in E, E0, E1. destruct E as (c1 & -> & J1), E0 as (c2 & -> & J2), E1 as (c3 & -> & J3).
      eexists (b1 ++ b2 ++ b3 ++ c1 ++ c2 ++ c3), _. rewrite <- !app_assoc. split; [reflexivity|]. split; [|reflexivity]. exists b1, b2, b3, (c1 ++ c2 ++ c3). do 4 (split; [first [reflexivity|assumption]|]). exists c1, c2, c3. auto.
    + injection H as <- <-. exists (b1 ++ b2 ++ b3), l2. rewrite <- !app_assoc. split; [reflexivity|]. split; [|reflexivity]. exists b1, b2, b3, []. rewrite app_nil_r. auto.
Qed.
Lemma in_app_repeat0 : forall (r : list Z) k, (0 < k)%nat -> In 0 (r ++ repeat 0 k).
Proof. intros r [|k] H; [lia|]. apply in_or_app. right. left. reflexivity. Qed.
(** A string without NUL characters is read exactly if it is there. *)
Lemma p_str_cases : forall l s r, p_str l = Some (s, r) ->
  (exists n, l = n :: s ++ r /\ length s = Z.to_nat n) \/ ((forall m l', l <> enc_str m ++ l') /\ r = [] /\ (s = [] \/ In 0 s)).
Proof.
  intros [|n l] s r H; cbn [p_str] in H.
  - injection H as <- <-. right. split; [intros m l'; discriminate|]. auto.
  - destruct (ptake (Z.to_nat n) l) as [[x r']|] eqn:E.
    + injection H as -> ->. apply ptake_inv in E. destruct E as [-> L]. left. exists n. auto.
    + injection H as <- <-. assert (SH : (length l < Z.to_nat n)%nat).
      { clear - E. revert l E. generalize (Z.to_nat n). induction n0 as [|k IH]; intros [|b l] E; try discriminate; cbn [length]; try lia. cbn [ptake] in E. destruct (ptake k l) as [[? ?]|] eqn:E1; [discriminate|]. apply IH in E1. lia. }
      right. split; [|split; [reflexivity|right; apply in_app_repeat0; lia]]. intros m l' Q. cbn [enc_str app] in Q. injection Q as -> ->. unfold zlen in SH. rewrite Nat2Z.id, app_length in SH. lia.
Qed.
Lemma p_str_mark : forall mark l s r, mark <> [] -> ~ In 0 mark -> p_str l = Some (s, r) -> if str_eqb s mark then l = enc_str mark ++ r else forall l', l <> enc_str mark ++ l'.
Proof.
  intros mark l s r NE N0 H. destruct (p_str_cases _ _ _ H) as [(n & -> & L)|(NO & -> & Z0)].
  - destruct (str_eqb s mark) eqn:Q.
    + apply str_eqb_spec in Q. subst s. cbn [enc_str app]. f_equal. unfold zlen. destruct mark; [contradiction|]. cbn [length] in L. cbn [length]. lia.
    + intros l' X. cbn [enc_str app] in X. injection X as -> X. assert (s = mark) as ->.
      { unfold zlen in L. rewrite Nat2Z.id in L. clear - X L. revert mark X L. induction s as [|a s IH]; intros [|b mark] X L; try discriminate; [reflexivity|]. cbn in X. injection X as -> X. f_equal. apply (IH _ X). cbn in L. lia. }
      rewrite (proj2 (str_eqb_spec mark mark) eq_refl) in Q. discriminate.
  - destruct (str_eqb s mark) eqn:Q; [|apply NO]. apply str_eqb_spec in Q. subst s. destruct Z0; contradiction.
Qed.

(** ** Opening *)

Section Open.
Context (z : zlib) (F : list Z).

Definition moved (a b : gst) : Prop := exists s ops, b = ws s ops a.
Definition at_view (c : bool) (v : list Z) (st : gst) : Prop := exists s, f_strm (g_fil st) = Some s /\ rdv z F c v s.
Definition on_file (st : gst) : Prop := exists s, f_strm (g_fil st) = Some s /\ rd_ok F s.
(** What does not change from one section to the next. *)
Record rdy (bo : border) (ver : Z) (comp : bool) (sysid : str) (st : gst) : Prop := mkRdy {
  ry_file : on_file st;
  ry_err : r_last (g_err st) = 0;
  ry_bo : f_bo (g_fil st) = bo;
  ry_ver : f_ver (g_fil st) = ver;
  ry_comp : f_uncomp (g_fil st) = comp;
  ry_sys : f_sysid (g_fil st) = sysid
}.
Definition sym_dims (st : gst) : list nat := List.map (fun e => sy_dim (snd e)) (d_names (g_dic st)).

Lemma at_on : forall c v st, at_view c v st -> on_file st.
Proof. intros c v st (s & E & R). exists s. split; [exact E|]. eapply rdv_ok. exact R. Qed.
Lemma parse_step : forall {A} (p : parser A) c v st a st', at_view c v st -> s_parse z p st = Done (a, st') -> exists v', p v = Some (a, v') /\ at_view c v' st' /\ moved st st'.
Proof.
  intros A p c v st a st' (s & E & R) H. rewrite (ws_self st s E) in H. destruct (p v) as [[b v']|] eqn:P.
  - destruct (s_parse_ok z p F c v s (f_ops (g_fil st)) st b v' R P) as (s' & ops' & E' & R'). rewrite E' in H. injection H as -> <-. exists v'. split; [reflexivity|]. split; [exists s'; split; [reflexivity|exact R']|exists s', ops'; reflexivity].
  - exfalso. unfold s_parse in H. rewrite strm_ws in H. rewrite (rd_flush z F s (rdv_ok _ _ _ _ _ R)) in H. destruct R as (_ & _ & V). rewrite V, P in H. discriminate.
Qed.
Lemma seek_step : forall c p st s1 st', on_file st -> s_setcomp z c st = Done s1 -> s_setpos z p s1 = Done st' -> 0 <= p /\ at_view c (seen z c F p) st' /\ moved st st'.
Proof.
  intros c p st s1 st' (s & E & R) E1 E2. assert (0 <= p).
  { unfold s_setpos in E2. destruct (f_strm (g_fil s1)); [|discriminate]. destruct (Z.ltb_spec p 0); [discriminate|lia]. }
  rewrite (ws_self st s E) in E1. destruct (s_seek z F c p s (f_ops (g_fil st)) st R H) as (st1 & s' & ops' & A & B & V). rewrite A in E1. injection E1 as <-. rewrite B in E2. injection E2 as <-.
  split; [exact H|]. split; [exists s'; split; [reflexivity|exact V]|exists s', ops'; reflexivity].
Qed.
Lemma check_step : forall cnd e st k r st', check_or cnd e st k = Done (r, st') -> r_last (g_err st) = 0 -> e <> 0 -> if cnd then k st = Done (r, st') else fails e r.
Proof.
  intros cnd e st k r st' H L N. unfold check_or in H. destruct cnd; [exact H|]. unfold file_error in H. injection H as <- _. unfold fails, set_error. destruct (Z.eqb_spec e 0); [contradiction|].
  cbn [g_err upd_err upd set_g_err r_last]. rewrite L. reflexivity.
Qed.
(** A mark, on the way. *)
Lemma mark_step : forall mark e c v st k r st' (K : list Z -> Prop), mark <> [] -> ~ In 0 mark -> at_view c v st -> r_last (g_err st) = 0 -> e <> 0 ->
  obind (s_parse z p_str st) (fun x => let '(m, s) := x in check_or (str_eqb m mark) e s k) = Done (r, st') ->
  (forall v' st1, at_view c v' st1 -> moved st st1 -> k st1 = Done (r, st') -> K v') -> mark_next mark e r v K.
Proof.
  intros mark e c v st k r st' K M1 M2 AV L N H HK. destruct (s_parse z p_str st) as [[m s]|] eqn:P; [|discriminate]. cbn [obind] in H.
  destruct (parse_step _ _ _ _ _ _ AV P) as (v' & PV & AV' & MV). pose proof (p_str_mark mark v m v' M1 M2 PV) as Q.
  assert (L' : r_last (g_err s) = 0) by (destruct MV as (? & ? & ->); exact L). pose proof (check_step _ _ _ _ _ _ H L' N) as C.
  destruct (str_eqb m mark); [left; exists v'; split; [exact Q|]; eapply HK; eassumption|right; auto].
Qed.

Ltac mv H := let s := fresh "s" in let o := fresh "o" in destruct H as (s & o & ->).
Lemma moved_rdy : forall bo ver comp sysid a b, rdy bo ver comp sysid a -> moved a b -> on_file b -> rdy bo ver comp sysid b.
Proof. intros bo ver comp sysid a b [] (s & o & ->) O. constructor; [exact O|assumption..]. Qed.

Ltac good_mark := first [discriminate|intros X; cbn in X; repeat (destruct X as [X|X]; [discriminate X|]); exact X].

Lemma symbs_step : forall bo ver comp sysid m st k r st' (K : list nat -> Prop), rdy bo ver comp sysid st -> open_symbs z m st k = Done (r, st') ->
  (forall st1, rdy bo ver comp sysid st1 -> k st1 = Done (r, st') -> K (sym_dims st1)) -> symbol_section z F r bo ver comp m K.
Proof.
  intros bo ver comp sysid m st k r st' K R H HK. pose proof R as [R1 R2 R3 R4 R5 R6]. unfold open_symbs in H. rewrite R3, R4, R5 in H.
  destruct (s_setcomp z comp st) as [s1|] eqn:E1; [|discriminate]. cbn [obind] in H. destruct (s_setpos z (mj_symb m) s1) as [s2|] eqn:E2; [|discriminate]. cbn [obind] in H.
  destruct (seek_step _ _ _ _ _ R1 E1 E2) as (P0 & AV & MV). split; [exact P0|]. mv MV.
  eapply mark_step in H; [exact H|discriminate|good_mark|exact AV|exact R2|discriminate|]. clear H.
  intros v1 st1 AV1 MV H. mv MV. cbv beta in H.
  destruct (s_parse z (p_counted bo (p_sym bo ver)) _) as [[l s5]|] eqn:E3; [|discriminate]. cbn [obind] in H.
  destruct (parse_step _ _ _ _ _ _ AV1 E3) as (v2 & PV & AV2 & MV). mv MV. clear E3.
  exists (List.map (fun e => sy_dim (snd e)) l). destruct (p_syms_inv _ _ _ _ _ PV) as (b & v2' & -> & SB & ->). exists b, v2. split; [reflexivity|]. split; [exact SB|].
  match type of H with obind (s_parse z p_str ?X) _ = _ => set (Y := X) in H end.
  assert (AV3 : at_view comp v2 Y) by (unfold Y; destruct l; exact AV2). assert (L3 : r_last (g_err Y) = 0) by (unfold Y; destruct l; exact R2).
  assert (RY : rdy bo ver comp sysid Y) by (constructor; [eapply at_on; exact AV3|exact L3|unfold Y; destruct l; assumption..]).
  assert (DY : sym_dims Y = List.map (fun e => sy_dim (snd e)) l) by (unfold Y; destruct l; reflexivity). clearbody Y.
  eapply mark_step in H; [exact H|discriminate|good_mark|exact AV3|exact L3|discriminate|]. clear H.
  intros v3 st3 AV4 MV H. cbv beta in H. rewrite <- DY. replace (sym_dims Y) with (sym_dims st3) by (mv MV; reflexivity). apply HK; [|exact H]. eapply moved_rdy; [exact RY|exact MV|]. eapply at_on. exact AV4.
Qed.

Lemma uels_step : forall bo ver comp sysid m st k r st' (K : Prop), rdy bo ver comp sysid st -> open_uels z m st k = Done (r, st') ->
  (forall st1, rdy bo ver comp sysid st1 -> sym_dims st1 = sym_dims st -> k st1 = Done (r, st') -> K) -> label_section z F r bo comp (is_2001 sysid) m K.
Proof.
  intros bo ver comp sysid m st k r st' K R H HK. pose proof R as [R1 R2 R3 R4 R5 R6]. unfold open_uels in H. rewrite R3, R5, R6 in H.
  destruct (s_setcomp z comp st) as [s1|] eqn:E1; [|discriminate]. cbn [obind] in H. destruct (s_setpos z (mj_uel m) s1) as [s2|] eqn:E2; [|discriminate]. cbn [obind] in H.
  destruct (seek_step _ _ _ _ _ R1 E1 E2) as (P0 & AV & MV). split; [exact P0|]. mv MV.
  eapply mark_step in H; [exact H|discriminate|good_mark|exact AV|exact R2|discriminate|]. clear H.
  intros v1 st1 AV1 MV H. mv MV. cbv beta in H.
  destruct (s_parse z (p_int bo) _) as [[n s5]|] eqn:E3; [|discriminate]. cbn [obind] in H. destruct (parse_step _ _ _ _ _ _ AV1 E3) as (v2 & PV & AV2 & MV). mv MV. clear E3.
  destruct (s_parse z (p_strs _) _) as [[l s6]|] eqn:E3; [|discriminate]. cbn [obind] in H. destruct (parse_step _ _ _ _ _ _ AV2 E3) as (v3 & PV3 & AV3 & MV). mv MV. clear E3.
  apply p_int_inv in PV. destruct PV as (c & -> & IC). destruct (pieces_inv p_sstr a_string (fun a l r => p_sstr_inv l a r) _ _ _ _ PV3) as (b & -> & PB).
  exists (c ++ b), v3. rewrite <- app_assoc. split; [reflexivity|]. split; [exists n, c, b; auto|].
  eapply mark_step in H; [exact H|discriminate|good_mark|exact AV3|exact R2|discriminate|]. clear H.
  intros v4 st4 AV4 MV H. cbv beta in H. mv MV. refine (HK _ _ _ H); [|reflexivity]. constructor; [eapply at_on; exact AV4|assumption..].
Qed.

Lemma texts_step : forall bo ver comp sysid m st k r st' (K : Prop), rdy bo ver comp sysid st -> open_texts z m st k = Done (r, st') ->
  (forall st1, rdy bo ver comp sysid st1 -> sym_dims st1 = sym_dims st -> k st1 = Done (r, st') -> K) -> text_section z F true r bo comp m K.
Proof.
  intros bo ver comp sysid m st k r st' K R H HK. pose proof R as [R1 R2 R3 R4 R5 R6]. unfold open_texts in H. rewrite R3, R5 in H.
  destruct (s_setcomp z comp st) as [s1|] eqn:E1; [|discriminate]. cbn [obind] in H. destruct (s_setpos z (mj_text m) s1) as [s2|] eqn:E2; [|discriminate]. cbn [obind] in H.
  destruct (seek_step _ _ _ _ _ R1 E1 E2) as (P0 & AV & MV). split; [exact P0|]. mv MV.
  eapply mark_step in H; [exact H|discriminate|good_mark|exact AV|exact R2|discriminate|]. clear H.
  intros v1 st1 AV1 MV H. mv MV. cbv beta in H.
  destruct (s_parse z (p_counted bo p_sstr) _) as [[l s5]|] eqn:E3; [|discriminate]. cbn [obind] in H. destruct (parse_step _ _ _ _ _ _ AV1 E3) as (v2 & PV & AV2 & MV). mv MV. clear E3.
  destruct (counted_inv bo p_sstr a_string (fun a l r => p_sstr_inv l a r) _ _ _ PV) as (b & v2' & -> & PB & ->). exists b, v2. split; [reflexivity|]. split; [exact PB|].
  match type of H with obind ?e _ = _ => destruct e as [[tx mt]|]; [|discriminate] end. cbn [obind] in H.
  eapply mark_step in H; [exact H|discriminate|good_mark|exact AV2|exact R2|discriminate|]. clear H.
  intros v4 st4 AV4 MV H. cbv beta in H. mv MV. refine (HK _ _ _ H); [|reflexivity]. constructor; [eapply at_on; exact AV4|assumption..].
Qed.

Lemma acros_step : forall bo ver comp sysid m st k r st' (K : Prop), rdy bo ver comp sysid st -> open_acros z m st k = Done (r, st') ->
  (forall st1, rdy bo ver comp sysid st1 -> sym_dims st1 = sym_dims st -> k st1 = Done (r, st') -> K) -> acronym_section z F r bo ver comp m K.
Proof.
  intros bo ver comp sysid m st k r st' K R H HK. pose proof R as [R1 R2 R3 R4 R5 R6]. unfold open_acros in H. rewrite R3, R4, R5 in H. unfold acronym_section.
  destruct (7 <=? ver) eqn:V; [|eapply HK; [exact R|reflexivity|exact H]].
  destruct (s_setcomp z comp st) as [s1|] eqn:E1; [|discriminate]. cbn [obind] in H. destruct (s_setpos z (mj_acro m) s1) as [s2|] eqn:E2; [|discriminate]. cbn [obind] in H.
  destruct (seek_step _ _ _ _ _ R1 E1 E2) as (P0 & AV & MV). split; [exact P0|]. mv MV.
  eapply mark_step in H; [exact H|discriminate|good_mark|exact AV|exact R2|discriminate|]. clear H.
  intros v1 st1 AV1 MV H. mv MV. cbv beta in H.
  destruct (s_parse z (p_counted bo (p_acro bo)) _) as [[l s5]|] eqn:E3; [|discriminate]. cbn [obind] in H. destruct (parse_step _ _ _ _ _ _ AV1 E3) as (v2 & PV & AV2 & MV). mv MV. clear E3.
  destruct (counted_inv bo (p_acro bo) (acronym_entry bo) (p_acro_inv bo) _ _ _ PV) as (b & v2' & -> & PB & ->). exists b, v2. split; [reflexivity|]. split; [exact PB|].
  eapply mark_step in H; [exact H|discriminate|good_mark|exact AV2|exact R2|discriminate|]. clear H.
  intros v4 st4 AV4 MV H. cbv beta in H. mv MV. refine (HK _ _ _ H); [|reflexivity]. constructor; [eapply at_on; exact AV4|assumption..].
Qed.

Lemma doms_step : forall bo ver comp sysid m st k r st' (K : Prop), rdy bo ver comp sysid st -> open_doms z m st k = Done (r, st') ->
  (forall st1, k st1 = Done (r, st') -> K) -> domain_section z F r bo ver comp m (sym_dims st) K.
Proof.
  intros bo ver comp sysid m st k r st' K R H HK. pose proof R as [R1 R2 R3 R4 R5 R6]. unfold open_doms in H.
  match type of H with context [upd_dic ?g st] => change (g_fil (upd_dic g st)) with (g_fil st) in H end. rewrite R3, R4, R5 in H. unfold domain_section.
  destruct ((7 <=? ver) && negb (mj_doms m =? 0)) eqn:V; [|eapply HK; exact H].
  match type of H with context [s_setcomp z comp ?X] => destruct (s_setcomp z comp X) as [s1|] eqn:E1; [|discriminate] end. cbn [obind] in H. destruct (s_setpos z (mj_doms m) s1) as [s2|] eqn:E2; [|discriminate]. cbn [obind] in H.
  destruct (seek_step _ _ (upd_dic (fun d => set_d_dn true (set_d_dstrs [] d)) st) _ _ R1 E1 E2) as (P0 & AV & MV). split; [exact P0|]. mv MV.
  eapply mark_step in H; [exact H|discriminate|good_mark|exact AV|exact R2|discriminate|]. clear H.
  intros v1 st1 AV1 MV H. mv MV. cbv beta in H.
  destruct (s_parse z (p_counted bo p_sstr) _) as [[l s5]|] eqn:E3; [|discriminate]. cbn [obind] in H. destruct (parse_step _ _ _ _ _ _ AV1 E3) as (v2 & PV & AV2 & MV). mv MV. clear E3.
  destruct (counted_inv bo p_sstr a_string (fun a l r => p_sstr_inv l a r) _ _ _ PV) as (b & v2' & -> & PB & ->). exists b, v2. split; [reflexivity|]. split; [exact PB|].
  eapply mark_step in H; [exact H|discriminate|good_mark|exact AV2|exact R2|discriminate|]. clear H.
  intros v3 st3 AV3 MV H. mv MV. cbv beta in H.
  match type of H with obind (s_parse z ?p ?X) _ = _ => destruct (s_parse z p X) as [[es s6]|] eqn:E3; [|discriminate] end. cbn [obind] in H. destruct (parse_step _ _ _ _ _ _ AV3 E3) as (v4 & PV4 & AV4 & MV). mv MV. clear E3.
  cbv beta in PV4. apply p_entries_inv in PV4. destruct PV4 as (b4 & -> & D4). exists b4, v4. split; [reflexivity|]. split; [exact D4|].
  eapply mark_step in H; [exact H|discriminate|good_mark|exact AV4|exact R2|discriminate|]. clear H.
  intros v5 st5 AV5 MV H. cbv beta in H. eapply HK. exact H.
Qed.
End Open.

Lemma p_order_inv : forall l o r, p_order l = Some (o, r) -> match o with Some bo => l = preamble bo ++ r | None => forall bo l', l <> preamble bo ++ l' end.
Proof.
  assert (ONE : forall n pat l o r, p_order1 n pat l = Some (o, r) -> match o with Some sw => l = Z.of_nat n :: (if sw : bool then rev pat else pat) ++ r | None => forall sw : bool, length pat = n -> forall l', l <> Z.of_nat n :: (if sw then rev pat else pat) ++ l' end).
  { intros n pat l o r H. unfold p_order1 in H. apply pbind_inv in H. destruct H as (sz & l1 & E & H). apply p_byte_inv in E. subst l. destruct (Z.eqb_spec sz (Z.of_nat n)) as [->|NE]; cbn [negb] in H.
    - apply pbind_inv in H. destruct H as (v & l2 & E & H). apply ptake_inv in E. destruct E as [-> L]. injection H as <- <-. destruct (str_eqb v pat) eqn:E1; [apply str_eqb_spec in E1; congruence|]. destruct (str_eqb v (rev pat)) eqn:E2; [apply str_eqb_spec in E2; congruence|].
      intros sw LP l' X. injection X as X. assert (Y : v = if sw then rev pat else pat).
      { assert (LL : length v = length (if sw then rev pat else pat)) by (destruct sw; [rewrite rev_length|]; congruence). revert X LL. generalize (if sw then rev pat else pat). clear. induction v as [|a v IH]; intros [|b w] X LL; try discriminate; [reflexivity|]. cbn in X. injection X as -> X. f_equal. apply IH; [exact X|]. cbn in LL. lia. }
      destruct sw; subst v; [rewrite (proj2 (str_eqb_spec _ _) eq_refl) in E2; discriminate|rewrite (proj2 (str_eqb_spec _ _) eq_refl) in E1; discriminate].
    - apply pbind_inv in H. destruct H as (v & l2 & E & H). injection H as <- <-. intros sw LP l' X. injection X as X _. contradiction. }
  assert (PRE : forall bo l', preamble bo ++ l' = Z.of_nat 2 :: (if bo_w bo then rev (le_bytes 2 0x1234) else le_bytes 2 0x1234) ++ Z.of_nat 4 :: (if bo_i bo then rev (le_bytes 4 0x12345678) else le_bytes 4 0x12345678) ++
    Z.of_nat 8 :: (if bo_d bo then rev (le_bytes 8 PI_BITS) else le_bytes 8 PI_BITS) ++ l').
  { intros [[|] [|] [|]] l'; reflexivity. }
  assert (HD : forall (sw sw' : bool) (p : list Z) (a b : list Z), length p <> O -> hd 0 p <> hd 0 (rev p) -> (if sw then rev p else p) ++ a = (if sw' then rev p else p) ++ b -> sw = sw' /\ a = b).
  { intros sw sw' p a b NP HN X. assert (sw = sw').
    { assert (NR : rev p <> []) by (intros Q; apply (f_equal (@length Z)) in Q; rewrite rev_length in Q; contradiction). destruct p as [|h p]; [contradiction NP; reflexivity|]. destruct (rev (h :: p)) as [|h' p']; [contradiction|].
      cbn [hd] in HN. destruct sw, sw'; try reflexivity; cbn [app] in X; injection X as X _; congruence. }
    subst sw'. apply app_inv_head in X. auto. }
  intros l o r H. unfold p_order in H. apply pbind_inv in H. destruct H as (w & l1 & E1 & H). apply pbind_inv in H. destruct H as (i & l2 & E2 & H). apply pbind_inv in H. destruct H as (d & l3 & E3 & H). injection H as <- <-.
  apply ONE in E1, E2, E3. destruct w as [w|].
  2:{ intros bo l' X. rewrite PRE in X. exact (E1 (bo_w bo) eq_refl _ X). }
  destruct i as [i|].
  2:{ intros bo l' X. rewrite PRE, E1 in X. apply (f_equal (@tl Z)) in X; cbn [tl] in X. apply HD in X; [|discriminate|discriminate]. destruct X as [_ X]. exact (E2 (bo_i bo) eq_refl _ X). }
  destruct d as [d|].
  2:{ intros bo l' X. rewrite PRE, E1 in X. apply (f_equal (@tl Z)) in X; cbn [tl] in X. apply HD in X; [|discriminate|discriminate]. destruct X as [_ X]. rewrite E2 in X. apply (f_equal (@tl Z)) in X; cbn [tl] in X. apply HD in X; [|discriminate|discriminate]. destruct X as [_ X]. exact (E3 (bo_d bo) eq_refl _ X). }
  rewrite PRE. subst l l1 l2. reflexivity.
Qed.
Lemma upper_no_nul : forall s, In 0 s -> In 0 (upper s).
Proof. intros s H. unfold upper. apply in_map_iff. exists 0. split; [reflexivity|exact H]. Qed.
Lemma p_str_len : forall l s r, bytes_ok l -> p_str l = Some (s, r) -> r <> [] -> l = enc_str s ++ r.
Proof.
  intros l s r B H N. destruct (p_str_cases _ _ _ H) as [(n & -> & L)|(_ & -> & _)]; [|contradiction]. apply Forall_inv in B. cbn in B. cbn [enc_str app]. f_equal. unfold zlen. rewrite L. unfold byte_ok in B. lia.
Qed.
Lemma enc_str_inj : forall s s' l l', enc_str s ++ l = enc_str s' ++ l' -> s = s' /\ l = l'.
Proof.
  intros s s' l l' H. cbn [enc_str app] in H. injection H as L H. unfold zlen in L. assert (LL : length s = length s') by lia. clear L. revert s' H LL. induction s as [|a s IH]; intros [|b s'] H LL; try discriminate; [auto|].
  cbn in H. injection H as -> H. destruct (IH _ H) as [-> ->]; [cbn in LL; lia|]. auto.
Qed.

Section Header.
Context (z : zlib) (F : list Z).
Lemma texts_choice : forall tx bo ver comp sysid m st (rest : gst -> outcome (resp * gst)) r st' (K : Prop), rdy F bo ver comp sysid st -> (if tx : bool then open_texts z m st rest else rest st) = Done (r, st') ->
  (forall st1, rdy F bo ver comp sysid st1 -> sym_dims st1 = sym_dims st -> rest st1 = Done (r, st') -> K) -> text_section z F tx r bo comp m K.
Proof. intros tx bo ver comp sysid m st rest r st' K R H HK. destruct tx; [eapply texts_step; eassumption|]. exact (HK st R eq_refl H). Qed.

(** Reading the header: what comes next, and what is known of the file object. *)
Record hdr (v : list Z) (st : gst) : Prop := mkHdr { hr_view : at_view z F false v st; hr_err : r_last (g_err st) = 0 }.
Definition known (st : gst) : border * Z * bool * str := (f_bo (g_fil st), f_ver (g_fil st), f_uncomp (g_fil st), f_sysid (g_fil st)).
Lemma hdr_parse : forall {A} (p : parser A) v st a st', hdr v st -> s_parse z p st = Done (a, st') -> exists v', p v = Some (a, v') /\ hdr v' st' /\ known st' = known st /\ f_nwp (g_fil st') = f_nwp (g_fil st).
Proof.
  intros A p v st a st' [AV L] E. destruct (parse_step z F _ _ _ _ _ _ AV E) as (v' & P & AV' & (x & ops & ->)). exists v'. split; [exact P|]. split; [split; [exact AV'|exact L]|]. split; reflexivity.
Qed.
Lemma hdr_fil : forall g v st, (forall f, f_strm (g f) = f_strm f) -> hdr v st -> hdr v (upd_fil g st).
Proof. intros g v st G [(s & E & R) L]. split; [exists s; split; [change (f_strm (g (g_fil st)) = Some s); rewrite G; exact E|exact R]|exact L]. Qed.
Lemma hdr_check : forall cnd e v st k r st', hdr v st -> check_or cnd e st k = Done (r, st') -> e <> 0 -> if cnd then k st = Done (r, st') else fails e r.
Proof. intros cnd e v st k r st' [_ L] H N. eapply check_step; eassumption. Qed.
Lemma hdr_getpos : forall v st p st', hdr v st -> s_getpos z st = Done (p, st') -> hdr v st' /\ known st' = known st.
Proof.
  intros v st p st' [(s & E & R) L] H. unfold s_getpos in H. rewrite E in H. pose proof R as (_ & RC & RV). unfold as_getpos in H. rewrite RC in H. unfold as_view in RV.
  destruct (as_mode s); try discriminate; injection H as _ <-; (split; [split; [exists s; split; [reflexivity|exact R]|exact L]|reflexivity]).
Qed.
Lemma hdr_rdy : forall v st bo ver comp sysid, hdr v st -> known st = (bo, ver, comp, sysid) -> rdy F bo ver comp sysid st.
Proof. intros v st bo ver comp sysid [AV L] K. injection K as K1 K2 K3 K4. constructor; [eapply at_on; exact AV|assumption..]. Qed.

(** The sections. *)
Lemma sections_step : forall tx bo ver comp sysid v st r st', hdr v st -> known st = (bo, ver, comp, sysid) ->
  obind (s_parse z (p_major (f_bo (g_fil st)) (f_ver (g_fil st)) (f_nwp (g_fil st))) st) (fun x => let '(m, st) := x in
    let st := upd_fil (set_f_nwp (mj_nwp m)) st in
    open_symbs z m st (fun st =>
    open_uels z m st (fun st =>
    let rest st :=
      open_acros z m st (fun st =>
      open_doms z m st (fun st =>
      let st := reset_special (upd_err (set_r_last 0) st) in
      let st := upd_fil (set_f_stat 1) (set_g_mode fr_init st) in
      obind (s_setcomp z false st) (fun st => Done (ret_i 1 [0], st)))) in
    if tx : bool then open_texts z m st rest else rest st))) = Done (r, st') ->
  exists m, then_next (positions bo ver m) v (fun _ => symbol_section z F r bo ver comp m (fun dims => label_section z F r bo comp (is_2001 sysid) m (text_section z F tx r bo comp m (acronym_section z F r bo ver comp m (domain_section z F r bo ver comp m dims (r = ret_i 1 [0])))))).
Proof.
  intros tx bo ver comp sysid v st r st' HD KN H. pose proof KN as KN'. injection KN' as K1 K2 _ _. rewrite K1, K2 in H.
  destruct (s_parse z (p_major bo ver (f_nwp (g_fil st))) st) as [[m s9]|] eqn:E; [|discriminate]. cbn [obind] in H. destruct (hdr_parse _ _ _ _ _ HD E) as (l9 & P9 & HD9 & K9 & _). clear E HD.
  exists m. destruct (p_major_inv _ _ _ _ _ _ P9) as (b9 & l9' & -> & PM & ->). exists b9, l9. split; [reflexivity|]. split; [exact PM|].
  cbv zeta in H. apply (hdr_fil (set_f_nwp (mj_nwp m))) in HD9; [|reflexivity].
  assert (RX : rdy F bo ver comp sysid (upd_fil (set_f_nwp (mj_nwp m)) s9)) by (eapply hdr_rdy; [exact HD9|]; rewrite <- KN, <- K9; reflexivity).
  eapply symbs_step; [exact RX|exact H|]. clear H. intros t1 R1 H. cbv beta in H.
  eapply uels_step; [exact R1|exact H|]. clear H. intros t2 R2 D2 H. cbv beta in H. cbv zeta in H. rewrite <- D2.
  eapply texts_choice; [exact R2|exact H|]. clear H. intros t3 R3 D3 H. cbv beta in H. rewrite <- D3.
  eapply acros_step; [exact R3|exact H|]. clear H. intros t4 R4 D4 H. cbv beta in H. rewrite <- D4.
  eapply doms_step; [exact R4|exact H|]. clear H. intros t5 H. cbv beta in H. match type of H with obind ?e _ = _ => destruct e; [|discriminate] end. cbn [obind] in H. injection H as <- _. reflexivity.
Qed.

Lemma header_step : forall st k r st' (K : border -> Z -> bool -> str -> list Z -> Prop), bytes_ok F -> hdr F st -> open_header z st k = Done (r, st') ->
  (forall bo ver comp sysid v st1, hdr v st1 -> known st1 = (bo, ver, comp, sysid) -> k st1 = Done (r, st') -> K bo ver comp sysid v) ->
  ((forall bo l, F <> preamble bo ++ l) /\ fails ERR_BADDATAFORMAT r) \/
  exists bo b l, F = preamble bo ++ b :: l /\
  ((b <> 123 /\ fails ERR_OPEN_FILEHEADER r) \/ b = 123 /\
  (((forall s l', l = enc_str s ++ l' -> upper s <> s2z "GAMSGDX") /\ fails ERR_OPEN_FILEMARKER r) \/
  exists id vb ver l1, l = enc_str id ++ vb ++ l1 /\ upper id = s2z "GAMSGDX" /\ an_int bo ver vb /\
  ((7 < ver /\ fails ERR_OPEN_FILEVERSION r) \/ ver <= 7 /\
  exists cb comp sb sysid prod mb boi l2, l1 = cb ++ sb ++ prod ++ mb ++ l2 /\ (if ver <=? 5 then cb = [] /\ comp = 0 else an_int bo comp cb) /\
    sb = zlen sysid :: sysid /\ a_string prod /\ an_int bo boi mb /\
  ((boi <> 19510624 /\ fails ERR_OPEN_BOI r) \/ boi = 19510624 /\ K bo ver (0 <? comp) sysid l2)))).
Proof.
  intros s0 k r st' K B HD H HK. unfold open_header in H.
  destruct (s_parse z p_order s0) as [[o s1]|] eqn:E; [|discriminate]. cbn [obind] in H. destruct (hdr_parse _ _ _ _ _ HD E) as (l1 & P & HD1 & _). clear E HD s0.
  apply p_order_inv in P. destruct o as [bo|]; [right|left; split; [exact P|]].
  2:{ unfold file_no_good, file_error in H. injection H as <- _. reflexivity. }
  apply (hdr_fil (set_f_bo bo)) in HD1; [|reflexivity]. cbv zeta in H. assert (KB : f_bo (g_fil (upd_fil (set_f_bo bo) s1)) = bo) by reflexivity.
  revert H HD1 KB. generalize (upd_fil (set_f_bo bo) s1). clear s1. intros s1 H HD KB.
  destruct (s_parse z p_byte s1) as [[b s2]|] eqn:E; [|discriminate]. cbn [obind] in H. destruct (hdr_parse _ _ _ _ _ HD E) as (l2 & P2 & HD2 & K2 & _). clear E HD.
  apply p_byte_inv in P2. subst l1. exists bo, b, l2. split; [exact P|].
  apply (hdr_check _ _ _ _ _ _ _ HD2) in H; [|discriminate]. destruct (Z.eqb_spec b gdxHeaderNr) as [EB|NB]; [right; split; [exact EB|]|left; split; [exact NB|exact H]].
  destruct (s_parse z p_str s2) as [[id s3]|] eqn:E; [|discriminate]. cbn [obind] in H. destruct (hdr_parse _ _ _ _ _ HD2 E) as (l3 & P3 & HD3 & K3 & _). clear E HD2.
  apply (hdr_check _ _ _ _ _ _ _ HD3) in H; [|discriminate].
  assert (B2 : bytes_ok l2). { rewrite P in B. apply Forall_app in B. destruct B as [_ B]. apply Forall_inv_tail in B. exact B. }
  destruct (str_eqb (upper id) (upper gdxHeaderId)) eqn:EI.
  2:{ left. split; [|exact H]. intros s l' Q U. assert (id = s).
      { destruct (p_str_cases _ _ _ P3) as [(n & X & L)|(X & _)]; [|exfalso; exact (X _ _ Q)].
        assert (n = zlen id). { rewrite X in B2. apply Forall_inv in B2. unfold byte_ok in B2. unfold zlen. rewrite L. lia. }
        subst n. rewrite X in Q. change (zlen id :: id ++ l3) with (enc_str id ++ l3) in Q. apply enc_str_inj in Q. apply Q. }
      subst s. change (upper gdxHeaderId) with (s2z "GAMSGDX") in EI. rewrite U, (proj2 (str_eqb_spec _ _) eq_refl) in EI. discriminate. }
  right. change (upper gdxHeaderId) with (s2z "GAMSGDX") in EI. apply str_eqb_spec in EI.
  destruct (s_parse z (p_int bo) s3) as [[ver s4]|] eqn:E; [|discriminate]. cbn [obind] in H. destruct (hdr_parse _ _ _ _ _ HD3 E) as (l4 & P4 & HD4 & K4 & _). clear E HD3.
  apply p_int_inv in P4. destruct P4 as (vb & -> & IV).
  assert (X3 : l2 = enc_str id ++ vb ++ l4). { apply p_str_len; [exact B2|exact P3|]. destruct IV as [LV _]. destruct vb; [discriminate LV|discriminate]. }
  exists id, vb, ver, l4. split; [exact X3|]. split; [exact EI|]. split; [exact IV|].
  apply (hdr_fil (set_f_ver ver)) in HD4; [|reflexivity]. assert (K5 : fst (fst (known (upd_fil (set_f_ver ver) s4))) = (bo, ver)).
  { assert (X : fst (fst (known (upd_fil (set_f_ver ver) s4))) = (f_bo (g_fil s4), ver)) by reflexivity. rewrite X. f_equal. change (f_bo (g_fil s4)) with (fst (fst (fst (known s4)))). rewrite K4, K3, K2. exact KB. }
  cbv zeta in H. clear K2 K3 K4 KB s1 s2 s3. revert H HD4 K5. generalize (upd_fil (set_f_ver ver) s4). clear s4. intros s4 H HD4 K5.
  apply (hdr_check _ _ _ _ _ _ _ HD4) in H; [|discriminate]. unfold GDX_VERSION in H. destruct (Z.leb_spec ver 7) as [LV|LV]; [right; split; [exact LV|]|left; split; [exact LV|exact H]].
  assert (B4 : bytes_ok l4). { rewrite X3 in B2. apply Forall_app in B2. destruct B2 as [_ B2]. apply Forall_app in B2. exact (proj2 B2). }
  clear P3 X3 EI IV P.
  destruct (if ver <=? 5 then Done (0, s4) else s_parse z (p_int bo) s4) as [[comp s5]|] eqn:E; [|discriminate]. cbn [obind] in H.
  assert (CX : exists cb l5, l4 = cb ++ l5 /\ (if ver <=? 5 then cb = [] /\ comp = 0 else an_int bo comp cb) /\ hdr l5 s5 /\ known s5 = known s4).
  { destruct (ver <=? 5).
    - injection E as <- <-. exists [], l4. auto.
    - destruct (hdr_parse _ _ _ _ _ HD4 E) as (l5 & P5 & HD5 & K6 & _). apply p_int_inv in P5. destruct P5 as (cb & -> & IC). exists cb, l5. auto. }
  destruct CX as (cb & l5 & -> & CC & HD5 & K6). clear E HD4. rewrite <- K6 in K5. clear K6 s4.
  destruct (s_parse z p_str s5) as [[sysid s6]|] eqn:E; [|discriminate]. cbn [obind] in H. destruct (hdr_parse _ _ _ _ _ HD5 E) as (l6 & P6 & HD6 & K6 & _). clear E HD5. rewrite <- K6 in K5. clear K6 s5.
  destruct (s_parse z p_str s6) as [[prod s7]|] eqn:E; [|discriminate]. cbn [obind] in H. destruct (hdr_parse _ _ _ _ _ HD6 E) as (l7 & P7 & HD7 & K6 & _). clear E HD6. rewrite <- K6 in K5. clear K6 s6.
  set (g := fun f => set_f_uncomp (0 <? comp) (set_f_compr comp (set_f_sysid sysid (set_f_prod prod f)))) in H.
  apply (hdr_fil g) in HD7; [|reflexivity]. assert (K8 : known (upd_fil g s7) = (bo, ver, 0 <? comp, sysid)).
  { transitivity (fst (fst (known s7)), 0 <? comp, sysid); [reflexivity|]. rewrite K5. reflexivity. }
  cbv zeta in H. clear K5. revert H HD7 K8. generalize (upd_fil g s7). clear s7 g. intros s7 H HD7 K8.
  destruct (s_getpos z s7) as [[mp s8]|] eqn:E; [|discriminate]. cbn [obind] in H. destruct (hdr_getpos _ _ _ _ HD7 E) as (HD8 & K9). clear E HD7. rewrite <- K9 in K8. clear K9 s7.
  apply (hdr_fil (set_f_mip mp)) in HD8; [|reflexivity]. assert (K9 : known (upd_fil (set_f_mip mp) s8) = known s8) by reflexivity. rewrite <- K9 in K8. clear K9.
  revert H HD8 K8. generalize (upd_fil (set_f_mip mp) s8). clear s8. intros s8 H HD8 K8.
  destruct (s_parse z (p_int bo) s8) as [[boi s9]|] eqn:E; [|discriminate]. cbn [obind] in H. destruct (hdr_parse _ _ _ _ _ HD8 E) as (l8 & P8 & HD9 & K9 & _). clear E HD8. rewrite <- K9 in K8. clear K9 s8.
  apply p_int_inv in P8. destruct P8 as (mb & -> & IM).
  assert (N7 : mb ++ l8 <> []) by (destruct IM as [LM _]; destruct mb; [discriminate LM|discriminate]).
  assert (B5 : bytes_ok l5) by (apply Forall_app in B4; exact (proj2 B4)).
  assert (X6 : exists pb, l6 = pb ++ mb ++ l8 /\ a_string pb).
  { destruct (p_str_cases _ _ _ P7) as [(n & -> & L)|(_ & X & _)]; [|contradiction]. exists (n :: prod). split; [reflexivity|]. exists n, prod. auto. }
  destruct X6 as (pb & -> & SP). assert (X5 : l5 = enc_str sysid ++ pb ++ mb ++ l8).
  { apply p_str_len; [exact B5|exact P6|]. destruct SP as (n & s & -> & _). discriminate. }
  exists cb, comp, (enc_str sysid), sysid, pb, mb, boi, l8. split; [rewrite X5; reflexivity|]. split; [exact CC|]. split; [reflexivity|]. split; [exact SP|]. split; [exact IM|].
  apply (hdr_check _ _ _ _ _ _ _ HD9) in H; [|discriminate]. unfold MARK_BOI in H. destruct (Z.eqb_spec boi 19510624) as [EM|NM]; [right; split; [exact EM|]|left; split; [exact NM|exact H]].
  eapply HK; [exact HD9|exact K8|exact H].
Qed.

Theorem C48_marks : forall st name mode r st', g_mode st = f_not_open -> name <> [] -> disk_get (e_disk (g_env st)) name = Some F -> bytes_ok F ->
  exec z (gdxOpenReadEx name mode) st = Done (r, st') -> format z F (Z.rem mode 2 =? 0) r.
Proof.
  intros st name mode r st' M N D B H. cbn [exec] in H. unfold open_read in H. rewrite M in H. cbn [mode_in negb] in H.
  match type of H with context [if ?c then _ else _] => change c with false in H end. cbn iota in H.
  destruct name as [|ch name]; [contradiction|]. set (nm := ch :: name) in *.
  match type of H with context [disk_get (e_disk (g_env ?X)) nm] => change (e_disk (g_env X)) with (e_disk (g_env st)) in H; set (s0 := X) in H end. rewrite D in H.
  assert (HD : hdr F (open_stream nm F s0)).
  { split; [|reflexivity]. eexists. split; [reflexivity|]. split; [reflexivity|]. split; reflexivity. }
  revert H HD. generalize (open_stream nm F s0). clear s0. intros s0 H HD. unfold format.
  refine (header_step s0 _ r st' (fun bo ver comp sysid l2 => exists m, then_next (positions bo ver m) l2 (fun _ => symbol_section z F r bo ver comp m (fun dims => label_section z F r bo comp (is_2001 sysid) m (text_section z F (Z.rem mode 2 =? 0) r bo comp m (acronym_section z F r bo ver comp m (domain_section z F r bo ver comp m dims (r = ret_i 1 [0]))))))) B HD H _).
  clear H HD s0. intros bo ver comp sysid v s0 HD KN H. cbv beta in H. exact (sections_step _ _ _ _ _ _ _ _ _ HD KN H).
Qed.
End Header.

(** ** Consequences *)

(** From position [p] on there is the mark, something, and the mark again. *)
Definition marked_at (z : zlib) (comp : bool) (F : list Z) (p : Z) (mark : str) : Prop := 0 <= p /\ exists body rest, seen z comp F p = enc_str mark ++ body ++ enc_str mark ++ rest.

(** A file that is opened has the header, and every section has its marks. *)
Theorem C48_opened : forall z F st name mode r st', g_mode st = f_not_open -> name <> [] -> disk_get (e_disk (g_env st)) name = Some F -> bytes_ok F ->
  exec z (gdxOpenReadEx name mode) st = Done (r, st') -> r_code r = 1 ->
  exists bo id vb ver cb comp sysid prod mb pos m rest,
    F = preamble bo ++ 123 :: enc_str id ++ vb ++ cb ++ enc_str sysid ++ prod ++ mb ++ pos ++ rest /\
    upper id = s2z "GAMSGDX" /\ an_int bo ver vb /\ ver <= 7 /\ (if ver <=? 5 then cb = [] /\ comp = 0 else an_int bo comp cb) /\ a_string prod /\ an_int bo 19510624 mb /\ positions bo ver m pos /\
    marked_at z (0 <? comp) F (mj_symb m) MARK_SYMB /\ marked_at z (0 <? comp) F (mj_uel m) MARK_UEL /\
    (Z.rem mode 2 = 0 -> marked_at z (0 <? comp) F (mj_text m) MARK_SETT) /\
    (7 <= ver -> marked_at z (0 <? comp) F (mj_acro m) MARK_ACRO) /\
    (7 <= ver -> mj_doms m <> 0 -> 0 <= mj_doms m /\ exists b1 b2 l, seen z (0 <? comp) F (mj_doms m) = enc_str MARK_DOMS ++ b1 ++ enc_str MARK_DOMS ++ b2 ++ enc_str MARK_DOMS ++ l).
Proof.
  intros z F st name mode r st' M N D B E C. pose proof (C48_marks z F st name mode r st' M N D B E) as Q. clear - Q C. unfold format in Q.
  assert (NF : forall e, ~ fails e r) by (intros e X; rewrite X in C; discriminate C).
  destruct Q as [[_ X]|(bo & b & l & FE & Q)]; [destruct (NF _ X)|]. destruct Q as [[_ X]|[-> Q]]; [destruct (NF _ X)|]. destruct Q as [[_ X]|(id & vb & ver & l1 & -> & UI & IV & Q)]; [destruct (NF _ X)|].
  destruct Q as [[_ X]|[LV Q]]; [destruct (NF _ X)|]. destruct Q as (cb & comp & sb & sysid & prod & mb & boi & l2 & -> & CC & -> & SP & IM & Q). destruct Q as [[_ X]|[-> Q]]; [destruct (NF _ X)|].
  destruct Q as (m & pos & rest & -> & PM & (P1 & Q)). exists bo, id, vb, ver, cb, comp, sysid, prod, mb, pos, m, rest. split; [exact FE|]. do 7 (split; [assumption|]).
  destruct Q as [(v1 & S1 & dims & b1 & v2 & -> & _ & Q)|[_ X]]; [|destruct (NF _ X)]. destruct Q as [(v3 & -> & (P2 & Q))|[_ X]]; [|destruct (NF _ X)].
  split; [split; [exact P1|exists b1, v3; exact S1]|]. clear S1.
  destruct Q as [(v4 & S2 & b2 & v5 & -> & _ & Q)|[_ X]]; [|destruct (NF _ X)]. destruct Q as [(v6 & -> & Q)|[_ X]]; [|destruct (NF _ X)].
  split; [split; [exact P2|exists b2, v6; exact S2]|]. clear S2.
  assert (T : (Z.rem mode 2 = 0 -> marked_at z (0 <? comp) F (mj_text m) MARK_SETT) /\ acronym_section z F r bo ver (0 <? comp) m (domain_section z F r bo ver (0 <? comp) m dims (r = ret_i 1 [0]))).
  { unfold text_section in Q. destruct (Z.eqb_spec (Z.rem mode 2) 0) as [TX|TX]; [|split; [intros X; contradiction|exact Q]]. destruct Q as (P3 & [(v7 & S3 & b3 & v8 & -> & _ & Q)|[_ X]]); [|destruct (NF _ X)].
    destruct Q as [(v9 & -> & Q)|[_ X]]; [|destruct (NF _ X)]. split; [|exact Q]. intros _. split; [exact P3|exists b3, v9; exact S3]. }
  destruct T as [T Q0]. split; [exact T|]. clear T Q. rename Q0 into Q. unfold acronym_section in Q. destruct (Z.leb_spec 7 ver) as [V|V]; [|split; intros; lia].
  destruct Q as (P4 & [(v7 & S3 & b3 & v8 & -> & _ & Q)|[_ X]]); [|destruct (NF _ X)]. destruct Q as [(v9 & -> & Q)|[_ X]]; [|destruct (NF _ X)]. split; [intros _; split; [exact P4|exists b3, v9; exact S3]|].
  intros _ ND. unfold domain_section in Q. rewrite (proj2 (Z.leb_le 7 ver) V) in Q. rewrite (proj2 (Z.eqb_neq _ _) ND) in Q. cbn [negb andb] in Q.
  destruct Q as (P5 & [(w1 & S4 & b4 & w2 & -> & _ & Q)|[_ X]]); [|destruct (NF _ X)]. destruct Q as [(w3 & -> & b5 & w4 & -> & _ & Q)|[_ X]]; [|destruct (NF _ X)]. destruct Q as [(w5 & -> & _)|[_ X]]; [|destruct (NF _ X)].
  split; [exact P5|]. exists b4, b5, w5. exact S4.
Qed.

(** gdxOpenAppend begins by opening the file in this way; a file that is too old is then
    refused. *)
Theorem C48_append : forall z F st name r st', g_mode st = f_not_open -> name <> [] -> disk_get (e_disk (g_env st)) name = Some F -> bytes_ok F ->
  exec z (gdxOpenAppend name) st = Done (r, st') -> exists r0, format z F true r0 /\ (r = r0 \/ r_code r0 = 1 /\ r = ret_i 0 [0]).
Proof.
  intros z F st name r st' M N D B E. cbn [exec] in E. unfold open_append in E. destruct (open_read z name 0 st) as [[r0 s0]|] eqn:E0; [|discriminate]. cbn [obind] in E.
  exists r0. split; [exact (C48_marks z F st name 0 r0 s0 M N D B E0)|]. destruct (Z.eqb_spec (r_code r0) 1) as [C|C]; cbn [negb] in E; [|injection E as <- _; left; reflexivity].
  destruct (f_ver (g_fil s0) <? 7).
  - match type of E with obind ?e _ = _ => destruct e as [[x y]|]; [|discriminate] end. cbn [obind] in E. injection E as <- _. right. auto.
  - match type of E with obind ?e _ = _ => destruct e as [x|]; [|discriminate] end. cbn [obind] in E. injection E as <- _. left. reflexivity.
Qed.

(** One byte of the file of Cases.v changed to a capital X: in the byte order patterns, the
    header, the identifier, the version, the mark of the index, and each of the marks of the
    sections. *)
Definition spoiled (k : Z) : gst := new_object [(s2z "f.gdx", zset k 88 case_file)].
Definition spoiled_places : list (Z * Z) :=
  [(1, ERR_BADDATAFORMAT); (17, ERR_OPEN_FILEHEADER); (20, ERR_OPEN_FILEMARKER); (26, ERR_OPEN_FILEVERSION); (f_mip (g_fil case_read), ERR_OPEN_BOI);
   (354, ERR_OPEN_SYMBOLMARKER1); (745, ERR_OPEN_SYMBOLMARKER2); (798, ERR_OPEN_UELMARKER1); (835, ERR_OPEN_UELMARKER2);
   (755, ERR_OPEN_TEXTMARKER1); (788, ERR_OPEN_TEXTMARKER2); (844, ERR_OPEN_ACROMARKER1); (876, ERR_OPEN_ACROMARKER2);
   (886, ERR_OPEN_DOMSMARKER1); (899, ERR_OPEN_DOMSMARKER2); (922, ERR_OPEN_DOMSMARKER3)].
Example C48_case : forall k e, In (k, e) spoiled_places -> g_mode (spoiled k) = f_not_open /\ disk_get (e_disk (g_env (spoiled k))) (s2z "f.gdx") = Some (zset k 88 case_file) /\
  bytes_ok (zset k 88 case_file) /\ exists st', exec rle_zlib (gdxOpenReadEx (s2z "f.gdx") 0) (spoiled k) = Done (ret_i 0 [e], st').
Proof.
  assert (X : forallb (fun q => forallb (fun b => (0 <=? b) && (b <? 256)) (zset (fst q) 88 case_file) &&
            match exec rle_zlib (gdxOpenReadEx (s2z "f.gdx") 0) (spoiled (fst q)) with Done (mkResp 0 [x] [] [] [], _) => x =? snd q | _ => false end) spoiled_places = true) by (vm_compute; reflexivity).
  intros k e I. rewrite forallb_forall in X. specialize (X _ I). cbn [fst snd] in X. apply andb_prop in X. destruct X as [X1 X2]. split; [reflexivity|]. split; [reflexivity|]. split.
  - apply Forall_forall. intros b J. rewrite forallb_forall in X1. specialize (X1 _ J). unfold byte_ok. lia.
  - destruct (exec rle_zlib (gdxOpenReadEx (s2z "f.gdx") 0) (spoiled k)) as [[[c ints ss vs cb] st']|]; [|discriminate]. exists st'.
    destruct c; try discriminate. destruct ints as [|x [|]]; try discriminate. destruct ss; try discriminate. destruct vs; try discriminate. destruct cb; try discriminate.
    apply Z.eqb_eq in X2. subst x. reflexivity.
Qed.
Example C48_case_opens : exists st', exec rle_zlib (gdxOpenReadEx (s2z "f.gdx") 0) (new_object [(s2z "f.gdx", case_file)]) = Done (ret_i 1 [0], st').
Proof. eexists. vm_compute. reflexivity. Qed.

Print Assumptions C48_marks.
Print Assumptions C48_opened.
Print Assumptions C48_append.
