(** * Journal: what a sequence of calls has handed over for storage

    A specification.  The journal is computed from the calls and their answers alone; it
    does not look into the object.  For symbols written with raw indices it lists the
    records that were accepted. *)

From Verif Require Import Base Prim Values Records State Api BlockFacts.

(** Index bounds that the format can represent. *)
Definition bounds_okb (mms : list (Z * Z)) : bool :=
  forallb (fun mm => (0 <=? fst mm) && (fst mm <=? INT_MAX) && (0 <=? snd mm) && (snd mm <=? INT_MAX)) mms.
Fixpoint inside (mms : list (Z * Z)) (keys : list Z) : bool :=
  match mms, keys with
  | mm :: mms', k :: ks => (fst mm <=? k) && (k <=? snd mm) && inside mms' ks
  | [], [] => true
  | _, _ => false
  end.

Lemma bounds_okb_spec : forall mms, bounds_okb mms = true <-> bounds_ok mms.
Proof.
  intros mms. unfold bounds_okb, bounds_ok. rewrite forallb_forall, Forall_forall.
  split; intros H mm I; specialize (H mm I); cbv beta in *; lia.
Qed.
Lemma inside_spec : forall mms keys, inside mms keys = true <-> Forall2 in_bounds mms keys.
Proof.
  induction mms as [| mm mms IH]; intros [| k ks]; cbn.
  - split; constructor.
  - split; [discriminate|]. intros H. inversion H.
  - split; [discriminate|]. intros H. inversion H.
  - rewrite Bool.andb_true_iff, IH. unfold in_bounds. split.
    + intros [A B]. constructor; [unfold in_bounds; lia|assumption].
    + intros H. inversion H; subst. unfold in_bounds in *. split; [lia|assumption].
Qed.

(** What the file is doing: nothing, registering labels, receiving the raw records of the
    symbol number [n], receiving mapped or string records, or (after a start call in the
    middle of a symbol) nothing useful any more. *)
Inductive jphase :=
| JIdle
| JReg
| JRaw (n : Z) (dim dsize : nat) (mms : list (Z * Z)) (recs : list srec) (ok : bool)
| JBuf (n : Z)
| JLost.

(** [j_tab]: the bit patterns that stand for special values.  [j_syms]: per symbol its raw
    records, once they are complete and were within the declared bounds. *)
Record journal := mkJ { j_tab : list Z; j_syms : list (option (list srec)); j_phase : jphase }.

Definition new_journal : journal := mkJ default_tab [] JIdle.

Definition j_start (r : resp) (ph : jphase) (J : journal) : journal :=
  match j_phase J with
  | JIdle => if r_code r =? 1 then mkJ (j_tab J) (j_syms J ++ [None]) ph else J
  | JReg => J
  | _ => mkJ (j_tab J) (j_syms J) JLost
  end.
Definition size_of (typ : Z) : nat := match data_size typ with Some k => k | None => O end.
Definition j_raw (dim typ : Z) (mms : list (Z * Z)) (J : journal) : jphase :=
  JRaw (zlen (j_syms J) + 1) (Z.to_nat dim) (size_of typ) mms [] (bounds_okb mms).

Definition jstep (c : call) (r : resp) (J : journal) : journal :=
  match j_phase J with
  | JLost => J
  | _ =>
  match c with
  | gdxDataWriteRawStart _ _ dim typ _ => j_start r (j_raw dim typ (repeat (0, INT_MAX) (Z.to_nat dim)) J) J
  | gdxDataWriteRawStartKeyBounds _ _ dim typ _ lo hi =>
      j_start r (j_raw dim typ (combine (firstn (Z.to_nat dim) lo) (firstn (Z.to_nat dim) hi)) J) J
  | gdxDataWriteMapStart _ _ _ _ _ | gdxDataWriteStrStart _ _ _ _ _ => j_start r (JBuf (zlen (j_syms J) + 1)) J
  | gdxDataWriteRaw keys vals =>
      match j_phase J with
      | JRaw n dim dsize mms recs ok =>
          if r_code r =? 1 then
            mkJ (j_tab J) (j_syms J)
              (JRaw n dim dsize mms (recs ++ [(firstn dim keys, List.map (classify (j_tab J)) (firstn dsize vals))])
                 (ok && inside mms (firstn dim keys)))
          else J
      | _ => J
      end
  | gdxDataWriteDone =>
      match j_phase J with
      | JRaw n _ _ _ recs ok => mkJ (j_tab J) (if ok then zset (n - 1) (Some recs) (j_syms J) else j_syms J) JIdle
      | JBuf n => mkJ (j_tab J) (j_syms J) JIdle
      | _ => J
      end
  | gdxUELRegisterRawStart | gdxUELRegisterMapStart | gdxUELRegisterStrStart =>
      match j_phase J with
      | JIdle => mkJ (j_tab J) (j_syms J) JReg
      | _ => J
      end
  | gdxUELRegisterDone =>
      match j_phase J with
      | JReg => mkJ (j_tab J) (j_syms J) JIdle
      | _ => J
      end
  | gdxAddAlias _ _ => if r_code r =? 1 then mkJ (j_tab J) (j_syms J ++ [None]) (j_phase J) else J
  | gdxSetSpecialValues vals =>
      if r_code r =? 1 then mkJ (firstn 5 vals ++ skipn 5 (j_tab J)) (j_syms J) (j_phase J) else J
  | gdxResetSpecialValues => mkJ default_tab (j_syms J) (j_phase J)
  | _ => J
  end
  end.

Fixpoint jrun (cs : list call) (rs : list resp) (J : journal) : journal :=
  match cs, rs with
  | c :: cs', r :: rs' => jrun cs' rs' (jstep c r J)
  | _, _ => J
  end.
