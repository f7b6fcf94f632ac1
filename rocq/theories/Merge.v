(** * Merge: the tool gdxmerge (src/tools/gdxmerge/gdxmerge.cpp)

    The tool reads any number of files and writes one file, in which every symbol has an
    additional first dimension that names the file a record comes from.  It is a client of
    the API: what it writes goes through calls of [Api] on one object.  Each input file is
    read through an object of its own; it is given here by what the calls on that object
    deliver (gdxSymbolInfo, gdxSymbolInfoX, gdxDataReadStr, gdxGetElemText).  Acronyms
    (ShareAcronyms, KeepNewAcronyms, 475-540) are left out: the input files have none, then
    these functions do nothing to the output.  Messages and the counter of errors are left
    out; files that cannot be opened are not in the list (185-190). *)

From Coq Require Import String.
From Verif Require Import Base Prim Values StrHash Strings AStream State FileImage ApiCore ApiWrite ApiRead Api.
Open Scope Z_scope.
Open Scope list_scope.

(** ** The input files *)

(** An answer of gdxDataReadStr: the first dimension that changed, the labels, the values. *)
Record mrec := mkMrec { m_af : Z; m_labels : list str; m_vals : list Z }.
(** gdxSymbolInfo, gdxSymbolInfoX and the records. *)
Record msym := mkMsym { y_name : str; y_dim : Z; y_typ : Z; y_uinfo : Z; y_expl : str; y_count : Z; y_recs : list mrec }.
(** FileId, FileInfo (335-393, from the name and the date of the file), the symbols, and
    gdxGetElemText. *)
Record mfile := mkMfile { h_id : str; h_info : str; h_syms : list msym; h_text : Z -> outcome str }.

(** 556-700: the options ID, EXCLUDE and BIG. *)
Record mopts := mkMopts { o_incl : list str; o_excl : list str; o_big : option Z }.
Definition no_mopts : mopts := mkMopts [] [] None.

(** ** The state of the tool *)

(** gdxmerge.hpp 34-45 (GAMSSymbol): [j_dim] counts the additional dimension; [j_data] is
    [None] once SyData is deleted. *)
Record gsym := mkGsym { j_name : str; j_dim : Z; j_typ : Z; j_sub : Z; j_expl : str; j_size : Z; j_skip : bool; j_data : option (list (list Z * list Z)) }.
Definition set_j_expl (v : str) (j : gsym) : gsym := mkGsym (j_name j) (j_dim j) (j_typ j) (j_sub j) v (j_size j) (j_skip j) (j_data j).
Definition set_j_size (v : Z) (j : gsym) : gsym := mkGsym (j_name j) (j_dim j) (j_typ j) (j_sub j) (j_expl j) v (j_skip j) (j_data j).
Definition set_j_skip (v : bool) (j : gsym) : gsym := mkGsym (j_name j) (j_dim j) (j_typ j) (j_sub j) (j_expl j) (j_size j) v (j_data j).
Definition set_j_data (v : option (list (list Z * list Z))) (j : gsym) : gsym := mkGsym (j_name j) (j_dim j) (j_typ j) (j_sub j) (j_expl j) (j_size j) (j_skip j) v.

(** The object that writes with the calls made on it and their answers; SyList; StrPool; the
    arrays IndxI and IndxS of the function at work. *)
Record mst := mkMst { q_g : gst; q_log : list (call * resp); q_syms : list gsym; q_pool : list (str * unit); q_idx : list Z; q_rows : list str }.
Definition set_q_syms (v : list gsym) (q : mst) : mst := mkMst (q_g q) (q_log q) v (q_pool q) (q_idx q) (q_rows q).
Definition set_q_pool (v : list (str * unit)) (q : mst) : mst := mkMst (q_g q) (q_log q) (q_syms q) v (q_idx q) (q_rows q).
Definition set_q_idx (v : list Z) (q : mst) : mst := mkMst (q_g q) (q_log q) (q_syms q) (q_pool q) v (q_rows q).
Definition set_q_rows (v : list str) (q : mst) : mst := mkMst (q_g q) (q_log q) (q_syms q) (q_pool q) (q_idx q) v.

(** gdxmerge.hpp 26-32 (ProcessPass), without the unused RpTooBig. *)
Inductive mpass := p_all | p_scan | p_small | p_big.

(** gdxmerge.hpp 24 (DataTypSize). *)
Definition data_size (typ : Z) : nat := if (typ =? dt_var) || (typ =? dt_equ) then 5%nat else 1%nat.
Definition no_idx : list Z := repeat 0 20.
Definition no_rows : list str := repeat [] 20.

(** gmsobj.hpp 560-565 (IndexOf): without regard to case. *)
Fixpoint sym_index (l : list gsym) (n : str) (i : Z) : option Z :=
  match l with [] => None | j :: l' => if same_text true (j_name j) n then Some i else sym_index l' n (i + 1) end.

(** gmsdata.hpp 108-118 (Sort).  std::sort need not be stable; a stable sort stands for it,
    which matters only for records with the same indices. *)
Fixpoint key_before (a b : list Z) : bool :=
  match a, b with
  | x :: a', y :: b' => if x <? y then true else if y <? x then false else key_before a' b'
  | _, _ => false
  end.
Fixpoint insert_rec (r : list Z * list Z) (l : list (list Z * list Z)) : list (list Z * list Z) :=
  match l with
  | [] => [r]
  | s :: l' => if key_before (fst r) (fst s) then r :: l else s :: insert_rec r l'
  end.
Definition sort_recs (l : list (list Z * list Z)) : list (list Z * list Z) := fold_left (fun acc r => insert_rec r acc) l [].

Section Run.
Context (z : zlib) (o : mopts).

Definition ask (c : call) (q : mst) : outcome (resp * mst) :=
  do (r, g) <- exec z c (q_g q) ;; Done (r, mkMst g (q_log q ++ [(c, r)]) (q_syms q) (q_pool q) (q_idx q) (q_rows q)).
Definition ask_ (c : call) (q : mst) : outcome mst := do (_, q) <- ask c q ;; Done q.

(** 122-126 (AddUEL): when the call fails the result is not initialised. *)
Definition add_uel (s : str) (q : mst) : outcome (Z * mst) :=
  do (r, q) <- ask (gdxUELRegisterStr s) q ;;
  if r_code r =? 0 then UB else Done (hd 0 (r_ints r), q).

(** 128-139 (AddSymbol): the names of the options are compared with regard to case. *)
Definition in_names (l : list str) (n : str) : bool := existsb (str_eqb n) l.
Definition wanted (n : str) : bool :=
  match o_incl o with [] => true | l => in_names l n end && match o_excl o with [] => true | l => negb (in_names l n) end.

(** 285-289: the labels of a record from dimension [i] on. *)
Fixpoint add_from (i : nat) (ls : list str) (q : mst) : outcome mst :=
  match ls with
  | [] => Done q
  | l :: ls' => do (v, q) <- add_uel l q ;; add_from (S i) ls' (set_q_idx (set_nth (S i) v (q_idx q)) q)
  end.
(** 290-293, 345-348: the text of an element becomes a number of the pool of texts. *)
Definition pool_text (h : mfile) (typ : Z) (vals : list Z) (q : mst) : outcome (list Z * mst) :=
  match vals with
  | x :: rest =>
      if (typ =? dt_set) && negb (feqb x d_zero) then
        match d_round x with
        | None => UB
        | Some n => do t <- h_text h n ;;
                    let '(p, i) := sl_add false (q_pool q) t tt in
                    Done (fofZ i :: rest, set_q_pool p q)
        end
      else Done (vals, q)
  | [] => UB
  end.
(** 294, gmsdata.hpp 73-81 (AddRecord). *)
Definition add_record (n : Z) (vals : list Z) (q : mst) : outcome mst :=
  match znth (q_syms q) n with
  | Some j => match j_data j with
              | Some l => Done (set_q_syms (zset n (set_j_data (Some (l ++ [(firstn (Z.to_nat (j_dim j)) (q_idx q), firstn (data_size (j_typ j)) vals)])) j) (q_syms q)) q)
              | None => UB
              end
  | None => UB
  end.
(** 284-295: the loop over the records. *)
Fixpoint take_recs (h : mfile) (n : Z) (dim typ : Z) (l : list mrec) (q : mst) : outcome mst :=
  match l with
  | [] => Done q
  | r :: l' =>
      do q <- (if 0 <? dim then
                 if m_af r <? 1 then UB else add_from (Z.to_nat (m_af r - 1)) (skipn (Z.to_nat (m_af r - 1)) (m_labels r)) q
               else Done q) ;;
      do (vals, q) <- pool_text h typ (m_vals r) q ;;
      do q <- add_record n vals q ;;
      take_recs h n dim typ l' q
  end.

(** 213-217: an alias counts as a set. *)
Definition typ_of (y : msym) : Z := if y_typ y =? dt_alias then dt_set else y_typ y.
Definition sub_of (y : msym) : Z := if y_typ y =? dt_alias then 0 else y_uinfo y.
Definition is_varequ (typ : Z) : bool := (typ =? dt_var) || (typ =? dt_equ).
Definition cutoff : Z := match o_big o with Some n => n | None => 10000000 end.

(** 205-297: one symbol of a file. *)
Definition rec_len (typ : Z) : Z := if is_varequ typ then 4 else 1.
Definition find_or_add (y : msym) (q : mst) : option (Z * mst) :=
  match sym_index (q_syms q) (y_name y) 0 with
  | Some n => Some (n, q)
  | None => if wanted (y_name y)
            then Some (zlen (q_syms q), set_q_syms (q_syms q ++ [mkGsym (y_name y) (y_dim y + 1) (typ_of y) (sub_of y) [] 0 false (Some [])]) q)
            else None
  end.
Definition matches (y : msym) (j : gsym) : bool :=
  (y_dim y + 1 =? j_dim j) && (typ_of y =? j_typ j) && (if is_varequ (typ_of y) then sub_of y =? j_sub j else true).
Definition take_symbol (p : mpass) (h : mfile) (y : msym) (q : mst) : outcome mst :=
  if negb (y_dim y <? 20) then Done q
  else
    match find_or_add y q with
    | None => Done q
    | Some (n, q) =>
        match znth (q_syms q) n with
        | None => UB
        | Some j =>
            match j_data j with
            | None => Done q
            | Some l =>
                if j_skip j then Done q
                else
                  let first := match p with p_all | p_scan => true | _ => false end in
                  let j := if first then set_j_size (j_size j + y_count y * j_dim j * rec_len (typ_of y)) j else j in
                  let q := set_q_syms (zset n j (q_syms q)) q in
                  if first && negb (zlen l + y_count y <=? 2^31 - 1) then
                    Done (set_q_syms (zset n (set_j_data None (set_j_skip true j)) (q_syms q)) q)
                  else if match p with p_all => false | p_scan => true | p_small => cutoff <=? j_size j | p_big => j_size j <? cutoff end then Done q
                  else if negb (matches y j) then Done q
                  else
                    let j := match j_expl j with [] => set_j_expl (y_expl y) j | _ => j end in
                    let q := set_q_syms (zset n j (q_syms q)) q in
                    do (v, q) <- add_uel (h_id h) q ;;
                    take_recs h n (y_dim y) (typ_of y) (y_recs y) (set_q_idx (set_nth 0 v (q_idx q)) q)
            end
        end
    end.
Fixpoint take_symbols (p : mpass) (h : mfile) (l : list msym) (q : mst) : outcome mst :=
  match l with [] => Done q | y :: l' => do q <- take_symbol p h y q ;; take_symbols p h l' q end.
(** 141-304 (AddPGXFile). *)
Definition add_file (p : mpass) (h : mfile) (q : mst) : outcome mst :=
  do q <- ask_ gdxUELRegisterStrStart (set_q_idx no_idx q) ;;
  do q <- take_symbols p h (h_syms h) q ;;
  ask_ gdxUELRegisterDone q.
Fixpoint add_files (p : mpass) (l : list mfile) (q : mst) : outcome mst :=
  match l with [] => Done q | h :: l' => do q <- add_file p h q ;; add_files p l' q end.

(** 306-368 (CollectBigOne).  The loop over the labels runs to SyDim, which counts the
    additional dimension. *)
Fixpoint add_rows (k : nat) (i : Z) (q : mst) : outcome mst :=
  match k with
  | O => Done q
  | S k' =>
      match znth (q_rows q) i with
      | None => UB
      | Some s => do (v, q) <- add_uel s q ;;
                  if 19 <? i + 1 then UB
                  else add_rows k' (i + 1) (set_q_idx (set_nth (Z.to_nat (i + 1)) v (q_idx q)) q)
      end
  end.
Fixpoint big_recs (h : mfile) (n : Z) (jdim typ : Z) (l : list mrec) (q : mst) : outcome mst :=
  match l with
  | [] => Done q
  | r :: l' =>
      let q := set_q_rows (m_labels r ++ skipn (length (m_labels r)) (q_rows q)) q in
      do q <- (if m_af r <? 1 then UB else add_rows (Z.to_nat (jdim - (m_af r - 1) + 1)) (m_af r - 1) q) ;;
      do (vals, q) <- pool_text h typ (m_vals r) q ;;
      do q <- add_record n vals q ;;
      big_recs h n jdim typ l' q
  end.
Fixpoint find_sym (n : str) (l : list msym) : option msym :=
  match l with [] => None | y :: l' => if same_text true (y_name y) n then Some y else find_sym n l' end.
Fixpoint big_files (n : Z) (j : gsym) (l : list mfile) (q : mst) : outcome mst :=
  match l with
  | [] => Done q
  | h :: l' =>
      do q <- (match find_sym (j_name j) (h_syms h) with
               | Some y => do (v, q) <- add_uel (h_id h) q ;;
                           big_recs h n (j_dim j) (j_typ j) (y_recs y) (set_q_idx (set_nth 0 v (q_idx q)) q)
               | None => Done q
               end) ;;
      big_files n j l' q
  end.
Definition collect_big (n : Z) (files : list mfile) (q : mst) : outcome (bool * mst) :=
  match znth (q_syms q) n with
  | None => UB
  | Some j =>
      match j_data j with
      | None => Done (false, q)
      | Some _ => do q <- ask_ gdxUELRegisterStrStart (set_q_rows no_rows (set_q_idx no_idx q)) ;;
                  do q <- big_files n j files q ;;
                  do q <- ask_ gdxUELRegisterDone q ;;
                  Done (true, q)
      end
  end.

(** 430-438: the records of a symbol. *)
Fixpoint write_recs (typ : Z) (l : list (list Z * list Z)) (q : mst) : outcome mst :=
  match l with
  | [] => Done q
  | (k, v) :: l' =>
      do (v, q) <- (match v with
                    | x :: rest =>
                        if (typ =? dt_set) && negb (feqb x d_zero) then
                          match d_round x with
                          | None => UB
                          | Some i => match znth (q_pool q) i with
                                      | Some (t, _) => do (r, q) <- ask (gdxAddSetText t) q ;; Done (fofZ (hd 0 (r_ints r)) :: rest, q)
                                      | None => UB
                                      end
                          end
                        else Done (v, q)
                    | [] => UB
                    end) ;;
      do q <- ask_ (gdxDataWriteRaw k v) q ;;
      write_recs typ l' q
  end.
(** 405-443 (WritePGXFile). *)
Definition write_symbol (p : mpass) (n : Z) (q : mst) : outcome mst :=
  match znth (q_syms q) n with
  | None => UB
  | Some j =>
      match j_data j with
      | None => Done q
      | Some l =>
          if match p with p_small => cutoff <=? j_size j | _ => false end then Done q
          else
            do q <- ask_ (gdxDataWriteRawStart (j_name j) (j_expl j) (j_dim j) (j_typ j) (j_sub j)) q ;;
            do q <- write_recs (j_typ j) (sort_recs l) q ;;
            do q <- ask_ gdxDataWriteDone q ;;
            Done (set_q_syms (zset n (set_j_data None j) (q_syms q)) q)
      end
  end.
Fixpoint write_symbols (p : mpass) (k : nat) (n : Z) (q : mst) : outcome mst :=
  match k with O => Done q | S k' => do q <- write_symbol p n q ;; write_symbols p k' (n + 1) q end.
Fixpoint write_big (files : list mfile) (k : nat) (n : Z) (q : mst) : outcome mst :=
  match k with
  | O => Done q
  | S k' => do (b, q) <- collect_big n files q ;;
            do q <- (if b then write_symbol p_big n q else Done q) ;;
            write_big files k' (n + 1) q
  end.

(** 445-473 (WriteNameList). *)
Definition set_name (n : Z) : str := s2z "Merged_set_" ++ int_str n.
Fixpoint free_name (fuel : nat) (n : Z) (q : mst) : outcome (str * mst) :=
  match fuel with
  | O => UB
  | S k => do (r, q) <- ask (gdxFindSymbol (set_name n)) q ;;
           if hd 0 (r_ints r) <? 0 then Done (set_name n, q) else free_name k (n + 1) q
  end.
Fixpoint write_names (l : list mfile) (q : mst) : outcome mst :=
  match l with
  | [] => Done q
  | h :: l' => do (r, q) <- ask (gdxAddSetText (h_info h)) q ;;
               do q <- ask_ (gdxDataWriteStr [h_id h] [fofZ (hd 0 (r_ints r))]) q ;;
               write_names l' q
  end.
Definition write_name_list (l : list mfile) (q : mst) : outcome mst :=
  do (nm, q) <- free_name (S (length (d_names (g_dic (q_g q))))) 1 q ;;
  do q <- ask_ (gdxDataWriteStrStart nm (s2z "Merge set") 1 0 0) q ;;
  do q <- write_names l q ;;
  ask_ gdxDataWriteDone q.

(** 760-812 (main), 117-120 (OpenOutput).  [compr]: environment variable GDXCOMPRESS. *)
Definition start_mst (g : gst) : mst := mkMst g [] [] [([], tt)] no_idx no_rows.
Definition collect (files : list mfile) (q : mst) : outcome mst :=
  match o_big o with
  | None =>
      do q <- add_files p_all files q ;;
      write_symbols p_all (length (q_syms q)) 0 q
  | Some _ =>
      do q <- add_files p_scan files q ;;
      do q <- add_files p_small files q ;;
      do q <- write_symbols p_small (length (q_syms q)) 0 q ;;
      write_big files (length (q_syms q)) 0 q
  end.
Definition merge_files (out : str) (compr : Z) (files : list mfile) (g : gst) : outcome mst :=
  do (r, q) <- ask (gdxOpenWriteEx out (s2z "gdxmerge") compr) (start_mst g) ;;
  do q <- ask_ (gdxStoreDomainSetsSet 0) q ;;
  if negb (hd 0 (r_ints r) =? 0) then Done q
  else
    do q <- collect files q ;;
    do q <- write_name_list files q ;;
    ask_ gdxClose q.
End Run.
