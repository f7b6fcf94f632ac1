(** * FileImage: the sections of a GDX file

    What gdxClose (gxfile.cpp 534-663) writes for the symbol table, the element texts,
    the labels, the acronyms and the domain names, and the parsers of gdxOpenReadXX
    (gxfile.cpp 1853-2099) for them.  Everything is parameterized by the byte order of
    the file ([native] when writing). *)

From Coq Require Import String Ascii.
From Verif Require Import Base Prim Values Records StrHash Strings State.
Open Scope Z_scope.
Open Scope list_scope.

(** Text constants as byte strings. *)
Definition s2z (s : string) : str := List.map (fun c => Z.of_N (N_of_ascii c)) (list_ascii_of_string s).

(** gxfile.cpp 52-75: the marks and the header constants. *)
Definition MARK_UEL : str := s2z "_UEL_".
Definition MARK_SYMB : str := s2z "_SYMB_".
Definition MARK_DATA : str := s2z "_DATA_".
Definition MARK_SETT : str := s2z "_SETT_".
Definition MARK_ACRO : str := s2z "_ACRO_".
Definition MARK_DOMS : str := s2z "_DOMS_".
Definition gdxHeaderNr : Z := 123.
Definition gdxHeaderId : str := s2z "GAMSGDX".
Definition GDX_VERSION : Z := 7.
Definition MARK_BOI : Z := 19510624.

(** gxfile.cpp 130 (auditLine).  The real text continues with the build date; a fixed
    one stands for it (the only use the library makes of it is to look for "2001" at
    position 15, which the fixed prefix rules out). *)
Definition auditLine : str := s2z "GDX Library C++ V7 (AUDIT) ALFA 15Nov26 WEX-WEI x86 64bit/Linux".

(** Decimal notation (rtl::sysutils_p3::IntToStr). *)
Fixpoint dec_digits (fuel : nat) (n : Z) : str :=
  match fuel with
  | O => []
  | S k => (if n <? 10 then [] else dec_digits k (n / 10)) ++ [48 + n mod 10]
  end.
Definition int_str (n : Z) : str :=
  if n <? 0 then 45 :: dec_digits 20 (- n) else dec_digits 20 n.

(** ** Symbols *)

(** gxfile.cpp 552-577: one entry of the symbol table. *)
Definition enc_strs (l : list str) : list Z := List.concat (List.map enc_str l).
Definition enc_ints (bo : border) (l : list Z) : list Z := List.concat (List.map (enc_int bo) l).

Definition enc_sym (bo : border) (e : str * sym) : list Z :=
  let s := snd e in
  enc_str (fst e) ++ enc_i64 bo (sy_pos s) ++ enc_int bo (Z.of_nat (sy_dim s)) ++ enc_byte (sy_type s)
  ++ enc_int bo (sy_uinfo s) ++ enc_int bo (sy_count s) ++ enc_int bo (sy_errs s)
  ++ enc_byte (b2z (sy_settext s)) ++ enc_str (sy_expl s) ++ enc_byte (b2z (sy_comp s))
  ++ (match sy_doms s with
      | None => enc_byte 0
      | Some l => enc_byte 1 ++ enc_ints bo l
      end)
  ++ enc_int bo (zlen (sy_comments s)) ++ enc_strs (sy_comments s).

(** gxfile.cpp 1934-1980: reading one.  A dimension outside 0..20 makes later accesses
    run outside the arrays: the parser gives up. *)
Definition p_ints (bo : border) (n : nat) : parser (list Z) := prepeat n (p_int bo).
Definition p_strs (n : nat) : parser (list str) := prepeat n p_sstr.

Definition p_sym (bo : border) (ver : Z) : parser (str * sym) :=
  (name <- p_sstr ;;
   pos <- (if ver <=? 5 then p_int bo else p_i64 bo) ;;
   dim <- p_int bo ;;
   typ <- p_byte ;;
   uinfo <- p_int bo ;;
   count <- p_int bo ;;
   errs <- p_int bo ;;
   settext <- p_byte ;;
   expl <- p_sstr ;;
   comp <- (if 5 <? ver then p_byte else pret 0) ;;
   hasd <- (if 7 <=? ver then p_byte else pret 0) ;;
   (if (0 <=? dim) && (dim <=? 20) then
      doms <- (if hasd =? 0 then pret None else ds <- p_ints bo (Z.to_nat dim) ;; pret (Some ds)) ;;
      ncom <- (if 7 <=? ver then p_int bo else pret 0) ;;
      coms <- p_strs (Z.to_nat ncom) ;;
      pret (name, mkSym pos (Z.to_nat dim) typ uinfo count errs (negb (settext =? 0)) expl
                    (negb (comp =? 0)) false doms None coms None)
    else pfail))%parse.

(** gxfile.cpp 548-579: the symbol section. *)
Definition enc_symbs (bo : border) (l : list (str * sym)) : list Z :=
  enc_str MARK_SYMB ++ enc_int bo (zlen l) ++ List.concat (List.map (enc_sym bo) l) ++ enc_str MARK_SYMB.

(** gxfile.cpp 581-589: element texts; strhash.hpp SaveToStream for the labels
    (gxfile.cpp 591-596). *)
Definition enc_texts (bo : border) (l : list str) : list Z :=
  enc_str MARK_SETT ++ enc_int bo (zlen l) ++ enc_strs l ++ enc_str MARK_SETT.
Definition enc_uels (bo : border) (l : list str) : list Z :=
  enc_str MARK_UEL ++ enc_int bo (zlen l) ++ enc_strs l ++ enc_str MARK_UEL.

(** gxfile.cpp 4137-4142 (TAcronym::SaveToStream), 3957-3962, 598-603. *)
Definition acro_saved_name (a : acro) : str :=
  match ac_name a with
  | [] => s2z "UnknownACRO" ++ int_str (ac_map a)
  | n => n
  end.
Definition enc_acro (bo : border) (a : acro) : list Z :=
  enc_str (acro_saved_name a) ++ enc_str (ac_text a) ++ enc_int bo (ac_map a).
Definition enc_acros (bo : border) (l : list acro) : list Z :=
  enc_str MARK_ACRO ++ enc_int bo (zlen l) ++ List.concat (List.map (enc_acro bo) l) ++ enc_str MARK_ACRO.

(** gxfile.cpp 4125-4129 (TAcronym from a stream). *)
Definition p_acro (bo : border) : parser acro :=
  (n <- p_sstr ;; t <- p_sstr ;; m <- p_int bo ;; pret (mkAcro n t m (-1) false))%parse.

(** gxfile.cpp 605-624: domain names, and for every symbol that has them the numbers of
    its domain names. *)
Fixpoint dom_entries (n : Z) (l : list (str * sym)) : list (Z * list Z) :=
  match l with
  | [] => []
  | e :: r => match sy_dstrs (snd e) with
              | Some ds => (n, ds) :: dom_entries (n + 1) r
              | None => dom_entries (n + 1) r
              end
  end.
Definition enc_entry (bo : border) (e : Z * list Z) : list Z := enc_int bo (fst e) ++ enc_ints bo (snd e).
Definition enc_doms (bo : border) (ds : list str) (es : list (Z * list Z)) : list Z :=
  enc_str MARK_DOMS ++ enc_int bo (zlen ds) ++ enc_strs ds ++ enc_str MARK_DOMS
  ++ List.concat (List.map (enc_entry bo) es) ++ enc_int bo (-1) ++ enc_str MARK_DOMS.

(** gxfile.cpp 2077-2086: the loop reading these entries; [dims] are the dimensions of
    the symbols.  A number beyond the symbol table is an access outside it. *)
Fixpoint p_entries (bo : border) (dims : list nat) (fuel : nat) : parser (list (Z * list Z)) :=
  match fuel with
  | O => pfail
  | S k => (n <- p_int bo ;;
            if n <=? 0 then pret []
            else match znth dims (n - 1) with
                 | None => pfail
                 | Some d => ds <- p_ints bo d ;; r <- p_entries bo dims k ;; pret ((n, ds) :: r)
                 end)%parse
  end.

Fixpoint set_entries (es : list (Z * list Z)) (l : list (str * sym)) : list (str * sym) :=
  match es with
  | [] => l
  | (n, ds) :: r => set_entries r (match znth l (n - 1) with
                                   | Some e => zset (n - 1) (fst e, set_sy_dstrs (Some ds) (snd e)) l
                                   | None => l
                                   end)
  end.

(** ** The header and the index *)

(** gmsstrm.cpp 789-846: the byte order patterns at the start of the file. *)
Definition PI_BITS : Z := 0x400921FB54442D18.
Definition preamble (bo : border) : list Z :=
  enc_byte 2 ++ enc_word bo 0x1234 ++ enc_byte 4 ++ enc_int bo 0x12345678 ++ enc_byte 8 ++ enc_dbl bo PI_BITS.

(** gxfile.cpp 424-433: up to the producer. *)
Definition enc_header (bo : border) (compr : Z) (sysid prod : str) : list Z :=
  enc_byte gdxHeaderNr ++ enc_str gdxHeaderId ++ enc_int bo GDX_VERSION ++ enc_int bo compr
  ++ enc_str sysid ++ enc_str prod.

(** gxfile.cpp 435: room for ten positions. *)
Definition index_room : list Z := repeat 0 80.

(** gxfile.cpp 628-633: the index. *)
Record major := mkMajor { mj_symb : Z; mj_uel : Z; mj_text : Z; mj_acro : Z; mj_nwp : Z; mj_doms : Z }.
Definition enc_major (bo : border) (m : major) : list Z :=
  enc_int bo MARK_BOI ++ enc_i64 bo (mj_symb m) ++ enc_i64 bo (mj_uel m) ++ enc_i64 bo (mj_text m)
  ++ enc_i64 bo (mj_acro m) ++ enc_i64 bo (mj_nwp m) ++ enc_i64 bo (mj_doms m).

(** gxfile.cpp 1909-1934: reading the positions.  In files older than version 7 the
    positions that do not exist are 0 ([nwp] keeps its old value). *)
Definition p_major (bo : border) (ver nwp : Z) : parser major :=
  (if ver <=? 5 then
     a <- p_int bo ;; b <- p_int bo ;; c <- p_int bo ;; d <- p_int bo ;; pret (mkMajor a b c 0 d 0)
   else
     a <- p_i64 bo ;; b <- p_i64 bo ;; c <- p_i64 bo ;;
     if 7 <=? ver then
       d <- p_i64 bo ;; e <- p_i64 bo ;; f <- p_i64 bo ;; pret (mkMajor a b c d e f)
     else pret (mkMajor a b c 0 nwp 0))%parse.

(** ** Data blocks *)

(** gxfile.cpp 1170-1185 (InitDoWrite). *)
Definition enc_mm (bo : border) (mm : Z * Z) : list Z := enc_int bo (fst mm) ++ enc_int bo (snd mm).
Definition enc_blockhead (bo : border) (dim : nat) (nrecs : Z) (mms : list (Z * Z)) : list Z :=
  enc_str MARK_DATA ++ enc_byte (Z.of_nat dim) ++ enc_int bo nrecs ++ List.concat (List.map (enc_mm bo) mms).

Definition p_mm (bo : border) : parser (Z * Z) := (a <- p_int bo ;; b <- p_int bo ;; pret (a, b))%parse.

(** gxfile.cpp 1382-1458: one record of a data block.  The reader of the values does
    not depend on the tables of the object; interpretation comes later. *)
Definition p_record (bo : border) (delta : Z) (dim dsize : nat) (mms : list (Z * Z)) (last : list Z)
    (l : list Z) : outcome (option (Z * list Z * list sval) * list Z) :=
  match read_keys bo delta dim mms last l with
  | UB => UB
  | Done (REnd r) => Done (None, r)
  | Done (RKeys af last' r) =>
      match prepeat dsize (p_sval bo) r with
      | Some (vs, r') => Done (Some (af, last', vs), r')
      | None => UB
      end
  end.
