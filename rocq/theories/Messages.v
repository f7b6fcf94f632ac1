(** * Messages: the texts of the errors (src/gxfile.cpp) *)

From Coq Require Import String.
From Verif Require Import Base Prim Values StrHash Strings State FileImage.
Open Scope Z_scope.
Open Scope list_scope.

(** 1632-1708 (errorCodeToStr), with the codes of 181-263. *)
Definition messages : list (Z * str) :=
  [(-100000, s2z "File name is empty");
   (-100001, s2z "File I/O error");
   (0, s2z "No error");
   (-100002, s2z "Bad mode");
   (-100003, s2z "Bad dimension");
   (-100026, s2z "Bad dimension for aliased set");
   (-100004, s2z "Bad UEL Nr");
   (-100005, s2z "Bad symbol number");
   (-100006, s2z "Element out of sequence");
   (-100007, s2z "Duplicate symbol");
   (-100008, s2z "Data is not sorted");
   (-100009, s2z "Duplicate keys");
   (-100010, s2z "Unknown filter");
   (-100011, s2z "Bad quotes");
   (-100012, s2z "Illegal identifier");
   (-100013, s2z "UEL string with different index");
   (-100014, s2z "Duplicate special value");
   (-100015, s2z "Bad Error record number");
   (-100016, s2z "Duplicate UEL");
   (-100017, s2z "Bad UEL string");
   (-100018, s2z "Unknown UEL");
   (-100019, s2z "gdx file has UEL table already");
   (-100020, s2z "UEL table is not empty");
   (-100021, s2z "Bad filter number");
   (-100022, s2z "Bad index in filter");
   (-100023, s2z "Unmapped index in filter");
   (-100024, s2z "Use of obsolete function");
   (-100025, s2z "Data not sorted when writing raw");
   (-100047, s2z "Bad index for acronym");
   (-100048, s2z "Bad acronym record number");
   (-100049, s2z "Bad acronym name for update");
   (-100050, s2z "Bad acronym index for update");
   (-100051, s2z "Bad addition to acronym table");
   (-100052, s2z "Unknown domain");
   (-100053, s2z "Domain not set with dim=1");
   (-100054, s2z "Set has no data");
   (-100055, s2z "Set expected for domain");
   (-100056, s2z "Bad data type");
   (-100057, s2z "No symbol to add comment to");
   (-100058, s2z "Domain violation");
   (-100059, s2z "File is already open");
   (-100060, s2z "File version to old for append");
   (-100061, s2z "Expected data marker (DOMS_1) not found in GDX file");
   (-100062, s2z "Expected data marker (DOMS_2) not found in GDX file");
   (-100063, s2z "Expected data marker (DOMS_3) not found in GDX file");
   (-100029, s2z "Expected data marker (DATA) not found in GDX file");
   (-100030, s2z "Expected data marker (DIM) not found in GDX file");
   (-100031, s2z "Expected data marker (BOI) not found in GDX file");
   (-100032, s2z "Expected data marker (FILEHEADER) not found in GDX file");
   (-100034, s2z "Expected data marker (FILEMARKER) not found in GDX file");
   (-100035, s2z "Expected data marker (SYMBOL_1) not found in GDX file");
   (-100036, s2z "Expected data marker (SYMBOL_2) not found in GDX file");
   (-100037, s2z "Expected data marker (UEL_1) not found in GDX file");
   (-100038, s2z "Expected data marker (UEL_2) not found in GDX file");
   (-100039, s2z "Expected data marker (TEXT_1) not found in GDX file");
   (-100040, s2z "Expected data marker (TEXT_2) not found in GDX file");
   (-100045, s2z "Expected data marker (ACRO_1) not found in GDX file");
   (-100046, s2z "Expected data marker (ACRO_2) not found in GDX file");
   (-100033, s2z "GDX file version not supported");
   (-100041, s2z "File not recognized as a GDX file");
   (-100043, s2z "Out of memory");
   (-100044, s2z "Compression library not found");
   (-100100, s2z "GDXCOPY: Unknown error");
   (-100101, s2z "GDXCOPY: Parameter error");
   (-100102, s2z "GDXCOPY: DLL not found");
   (-100103, s2z "GDXCOPY: Cannot create directory");
   (-100104, s2z "GDXCOPY: File open failed");
   (-100105, s2z "GDXCOPY: Cannot open file for write");
   (-100106, s2z "GDXCOPY: UEL length exceeds maximum");
   (-100107, s2z "GDXCOPY: Cannot register UELs");
   (-100108, s2z "GDXCOPY: Cannot save explanatory text");
   (-100109, s2z "GDXCOPY: Dimension exceeds maximum");
   (-100110, s2z "GDXCOPY: Error writing symbol");
   (-100111, s2z "GDXCOPY: Error closing file");
   (-100112, s2z "GDXCOPY: Cannot delete file");
   (-100113, s2z "GDXCOPY: Cannot rename file")].
Fixpoint message_in (l : list (Z * str)) (n : Z) : option str :=
  match l with
  | [] => None
  | e :: r => if fst e =? n then Some (snd e) else message_in r n
  end.
Definition has_message (n : Z) : bool := match message_in messages n with Some _ => true | None => false end.

(** gdlib/utils.hpp 696-704 (assignStrToBuf) into a buffer of 256 characters: a text of more
    than 256 characters is not handed over ([None]: the buffer keeps what it had), one of
    exactly 256 is written with its end mark behind the buffer. *)
Definition to_buffer (s : str) : outcome (option str) :=
  if 256 <? zlen s then Done None else if zlen s =? 256 then UB else Done (Some s).
(** 1710-1718 (gdxErrorStr).  [os] is SysErrorMessage, the text of the operating system;
    [file] is lastFileName, the name of the file that was last opened to read (empty: none). *)
Definition error_str (os : Z -> str) (file : str) (n : Z) : outcome (option str) :=
  let msg := match message_in messages n with Some s => s | None => os n end in
  to_buffer (if (n =? 2) && negb (match file with [] => true | _ => false end) then msg ++ s2z ": " ++ [34] ++ file ++ [34] else msg).
