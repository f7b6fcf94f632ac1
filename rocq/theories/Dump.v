(** * Dump: the tool gdxdump (src/tools/gdxdump/gdxdump.cpp), CSV output

    The tool writes one symbol of a file as text.  It is a client of the API: what it reads
    goes through calls of [Api] on one object.  Modelled are the functions behind
    Format=csv: QQCSV, WrVal, GetUELAsString, GetUel4CSV and WriteSymbolCSV.  The text of a
    number (DblToStrSep, dblToStrHex, dblToStrHexponential, selected by dFormat and
    DecimalSep) is a parameter [num].  The warning about labels without a string (776-778)
    is left out: it is written after the table. *)

From Coq Require Import String.
From Verif Require Import Base Prim Values StrHash Strings AStream State FileImage ApiCore ApiWrite ApiRead Api.
Open Scope Z_scope.
Open Scope list_scope.

(** 53-60: Delim, ShowHdr, Header, CDim, CSVAllFields, CSVSetText and the strings of
    EpsOut, NaOut, PinfOut, MinfOut, UndfOut, ZeroOut. *)
Record dopts := mkDopts { o_delim : Z; o_hdr : bool; o_header : option str; o_cdim : bool; o_full : bool; o_stext : bool;
  o_eps : option str; o_na : option str; o_pinf : option str; o_minf : option str; o_undf : option str; o_zero : option str }.

Definition ch_tab : Z := 9.
Definition ch_eol : Z := 10.
Definition ch_quote : Z := 34.

(** 67-87 (QQCSV).  The part after the first quote is cut to GMS_SSSIZE - 1 characters. *)
Fixpoint at_quote (s : str) : option (str * str) :=
  match s with
  | [] => None
  | c :: r => if c =? ch_quote then Some ([], r) else match at_quote r with Some (a, b) => Some (c :: a, b) | None => None end
  end.
Fixpoint double_quotes (s : str) : str :=
  match s with [] => [] | c :: r => if c =? ch_quote then ch_quote :: ch_quote :: double_quotes r else c :: double_quotes r end.
Definition qqcsv (o : dopts) (s : str) : str :=
  if o_delim o =? ch_tab then s
  else match at_quote s with
       | None => [ch_quote] ++ s ++ [ch_quote]
       | Some (a, b) => [ch_quote] ++ a ++ [ch_quote; ch_quote] ++ double_quotes (firstn 255 b) ++ [ch_quote]
       end.

(** common.cpp 115-125 (specialValueStr); the order is that of gdxMapValue. *)
Definition special_str (i : Z) : str := nth (Z.to_nat i) [s2z "Undf"; s2z "NA"; s2z "+Inf"; s2z "-Inf"; s2z "Eps"; s2z "0"; s2z "AcroN"] (s2z "Unknown").
Definition special_out (o : dopts) (i : Z) : str :=
  match nth (Z.to_nat i) [o_undf o; o_na o; o_pinf o; o_minf o; o_eps o] None with Some s => s | None => special_str i end.

Section Z.
Context (z : zlib) (num : Z -> str).

(** 165-207 (WrVal). *)
Definition wr_val (o : dopts) (v : Z) (st : gst) : outcome str :=
  do (r, _) <- exec z (gdxAcronymName v) st ;;
  if negb (r_code r =? 0) then Done (hd [] (r_strs r))
  else do (m, _) <- exec z (gdxMapValue v) st ;;
       let sv := hd 0 (r_ints m) in
       if negb (sv =? 5) then Done (special_out o sv)
       else match o_zero o with Some s => if feqb v d_zero then Done s else Done (num v) | None => Done (num v) end.

(** 211-219 (GetUELAsString), 221-223 (GetUel4CSV). *)
Definition uel_string (n : Z) (st : gst) : outcome str :=
  do (r, _) <- exec z (gdxUMUelGet n) st ;;
  if r_code r =? 0 then Done (s2z "L__" ++ int_str n) else Done (hd [] (r_strs r)).
Definition uel_csv (o : dopts) (n : Z) (st : gst) : outcome str := do s <- uel_string n st ;; Done (qqcsv o s).

(** 566-599 (GetDomainNames).  Only the names before the neighbour are compared (585). *)
Fixpoint free_column (fuel : nat) (base s : str) (before : list str) (nr : Z) : outcome (str * Z) :=
  if existsb (str_eqb s) before then
    match fuel with O => UB | S k => free_column k base (base ++ s2z "_" ++ int_str nr) before (nr + 1) end
  else Done (s, nr).
Fixpoint column_names (doms : list str) (done : list str) (nr : Z) : outcome (list str) :=
  match doms with
  | [] => Done done
  | d :: r =>
      let base := if str_eqb d (s2z "*") then s2z "Dim" ++ int_str (zlen done + 1) else d in
      do (s, nr) <- free_column 30 base base (removelast done) nr ;;
      column_names r (done ++ [s]) nr
  end.

(** Texts with a delimiter between them. *)
Fixpoint join (d : Z) (l : list str) : str :=
  match l with [] => [] | [a] => a | a :: r => a ++ d :: join d r end.
Fixpoint omap {A B} (f : A -> outcome B) (l : list A) : outcome (list B) :=
  match l with [] => Done [] | a :: r => do b <- f a ;; do bs <- omap f r ;; Done (b :: bs) end.

Definition is_ve (typ : Z) : bool := (typ =? dt_var) || (typ =? dt_equ).
Definition is_setlike (typ : Z) : bool := (typ =? dt_set) || (typ =? dt_alias).

(** 618-647: the first line. *)
Definition csv_header (o : dopts) (names : list str) (typ : Z) : str :=
  match o_header o with
  | Some h => match h with [] => [] | _ => h ++ [ch_eol] end
  | None =>
      if o_hdr o then
        join (o_delim o) (List.map (qqcsv o) names) ++
        (if negb (is_setlike typ) then
           match names with [] => qqcsv o (s2z "Val") | _ => o_delim o :: qqcsv o (s2z "Val") end
         else if o_stext o then o_delim o :: qqcsv o (s2z "Text") else []) ++
        (if is_ve typ && o_full o then
           o_delim o :: qqcsv o (s2z "Marginal") ++ o_delim o :: qqcsv o (s2z "Lower") ++ o_delim o :: qqcsv o (s2z "Upper") ++ o_delim o :: qqcsv o (s2z "Scale") else []) ++
        [ch_eol]
      else []
  end.

(** 650-690: the line of one record. *)
Definition csv_values (o : dopts) (typ : Z) (vals : list Z) (st : gst) : outcome str :=
  do a <- wr_val o (nth 0 vals 0) st ;;
  if is_ve typ && o_full o then
    do b <- wr_val o (nth 1 vals 0) st ;; do c <- wr_val o (nth 2 vals 0) st ;;
    do d <- wr_val o (nth 3 vals 0) st ;; do e <- wr_val o (nth 4 vals 0) st ;;
    Done (a ++ o_delim o :: b ++ o_delim o :: c ++ o_delim o :: d ++ o_delim o :: e)
  else Done a.
Definition csv_text (o : dopts) (vals : list Z) (st : gst) : outcome str :=
  let x := nth 0 vals 0 in
  if feqb x d_zero then Done [o_delim o]
  else match d_round x with
       | Some n => do (r, _) <- exec z (gdxGetElemText n) st ;; Done (o_delim o :: qqcsv o (hd [] (r_strs r)))
       | None => UB
       end.
Definition csv_line (o : dopts) (dim typ : Z) (keys vals : list Z) (st : gst) : outcome str :=
  if dim =? 0 then do s <- csv_values o typ vals st ;; Done (s ++ [ch_eol])
  else
    do ls <- omap (fun k => uel_csv o k st) keys ;;
    do t <- (if negb (is_setlike typ) then do s <- csv_values o typ vals st ;; Done (o_delim o :: s)
             else if o_stext o then csv_text o vals st else Done []) ;;
    Done (join (o_delim o) ls ++ t ++ [ch_eol]).

(** 648-691: the loop over the records; [fuel] bounds the number of calls. *)
Fixpoint csv_lines (fuel : nat) (o : dopts) (dim typ : Z) (st : gst) : outcome (str * gst) :=
  match fuel with
  | O => UB
  | S k =>
      do (r, st) <- exec z gdxDataReadRaw st ;;
      if r_code r =? 0 then Done ([], st)
      else do a <- csv_line o dim typ (tl (r_ints r)) (r_vals r) st ;;
           do (b, st) <- csv_lines k o dim typ st ;;
           Done (a ++ b, st)
  end.

(** ** One column for each label of the last dimension (692-774) *)

(** 698-706: the labels that occur in the last dimension; CSVCols has an entry for each
    label of the table (693). *)
Fixpoint csv_mark (fuel : nat) (cols : list bool) (st : gst) : outcome (list bool * gst) :=
  match fuel with
  | O => UB
  | S k =>
      do (r, st) <- exec z gdxDataReadRaw st ;;
      if r_code r =? 0 then Done (cols, st)
      else let i := last (tl (r_ints r)) 0 in
           match znth cols (i - 1) with
           | None => UB
           | Some _ => csv_mark k (zset (i - 1) true cols) st
           end
  end.
(** 709-719: their numbers. *)
Fixpoint csv_uels (cols : list bool) (i : Z) : list Z :=
  match cols with [] => [] | b :: r => (if b then [i] else []) ++ csv_uels r (i + 1) end.

(** 720-735: the first line. *)
Definition csv_cheader (o : dopts) (names : list str) (uels : list Z) (st : gst) : outcome str :=
  match o_header o with
  | Some h => match h with [] => Done [] | _ => Done (h ++ [ch_eol]) end
  | None =>
      if o_hdr o then
        do ls <- omap (fun k => uel_csv o k st) uels ;;
        Done (concat (List.map (fun s => qqcsv o s ++ [o_delim o]) (removelast names)) ++ join (o_delim o) ls ++ [ch_eol])
      else Done []
  end.

(** 748-754: to the column of the label [i]. *)
Fixpoint csv_seek (fuel : nat) (o : dopts) (uels : list Z) (i col : Z) : outcome (str * Z) :=
  match fuel with
  | O => UB
  | S k =>
      if col <? zlen uels then
        match znth uels (col + 1) with
        | None => UB
        | Some u => if i <=? u then Done ([], col + 1) else do (t, c) <- csv_seek k o uels i (col + 1) ;; Done (o_delim o :: t, c)
        end
      else Done ([], col)
  end.
(** 746-771: the values of one line, from the record at hand on.  The next record is part of
    the result unless there is none. *)
Fixpoint csv_row (fuel : nat) (o : dopts) (dim typ : Z) (uels keys vals : list Z) (col : Z) (st : gst) : outcome (str * option (list Z * list Z) * gst) :=
  match fuel with
  | O => UB
  | S k =>
      let i := last keys 0 in
      do (t, col) <- csv_seek (S (length uels)) o uels i col ;;
      match znth uels col with
      | None => UB
      | Some u =>
          if u =? i then
            do v <- (if is_setlike typ then Done (s2z "Y") else wr_val o (nth 0 vals 0) st) ;;
            do (r, st) <- exec z gdxDataReadRaw st ;;
            let out := t ++ o_delim o :: v in
            if r_code r =? 0 then Done (out ++ repeat (o_delim o) (Z.to_nat (zlen uels - 1 - col)), None, st)
            else
              let ks := tl (r_ints r) in let vs := r_vals r in
              if hd 0 (r_ints r) <? dim then Done (out ++ repeat (o_delim o) (Z.to_nat (zlen uels - 1 - col)), Some (ks, vs), st)
              else do (rest, next, st) <- csv_row k o dim typ uels ks vs col st ;; Done (out ++ rest, next, st)
          else
            do (rest, next, st) <- csv_row k o dim typ uels keys vals col st ;; Done (t ++ rest, next, st)
      end
  end.
(** 738-773: the lines. *)
Fixpoint csv_rows (fuel : nat) (o : dopts) (dim typ : Z) (uels : list Z) (cur : option (list Z * list Z)) (st : gst) : outcome (str * gst) :=
  match cur with
  | None => Done ([], st)
  | Some (keys, vals) =>
      match fuel with
      | O => UB
      | S k =>
          do ls <- omap (fun k => uel_csv o k st) (removelast keys) ;;
          do (cells, next, st) <- csv_row fuel o dim typ uels keys vals (-1) st ;;
          do (rest, st) <- csv_rows k o dim typ uels next st ;;
          Done (join (o_delim o) ls ++ cells ++ [ch_eol] ++ rest, st)
      end
  end.

(** 559-779 (WriteSymbolCSV).  [fuel] bounds the number of records. *)
Definition csv_symbol (fuel : nat) (o : dopts) (n : Z) (st : gst) : outcome (str * gst) :=
  do (ri, _) <- exec z gdxSystemInfo st ;;
  let nruel := nth 1 (r_ints ri) 0 in
  do (rs, _) <- exec z (gdxSymbolInfo n) st ;;
  let dim := nth 0 (r_ints rs) 0 in
  let typ := nth 1 (r_ints rs) 0 in
  do (rd, st) <- exec z (gdxSymbolGetDomainX n) st ;;
  do names <- column_names (List.map (fun i => nth i (r_strs rd) []) (seq 0 (Z.to_nat dim))) [] 1 ;;
  if negb (o_cdim o && (2 <=? dim)) then
    do (_, st) <- exec z (gdxDataReadRawStart n) st ;;
    do (body, st) <- csv_lines fuel o dim typ st ;;
    Done (csv_header o names typ ++ body, st)
  else
    do (_, st) <- exec z (gdxDataReadRawStart n) st ;;
    do (marks, st) <- csv_mark fuel (repeat false (Z.to_nat nruel)) st ;;
    do (_, st) <- exec z gdxDataReadDone st ;;
    let uels := csv_uels marks 1 in
    do hdr <- csv_cheader o names uels st ;;
    do (_, st) <- exec z (gdxDataReadRawStart n) st ;;
    do (r, st) <- exec z gdxDataReadRaw st ;;
    do (body, st) <- csv_rows fuel o dim typ uels (if r_code r =? 0 then None else Some (tl (r_ints r), r_vals r)) st ;;
    do (_, st) <- exec z gdxDataReadDone st ;;
    Done (hdr ++ body, st).
End Z.
