(** * ElfRead: model of the ELF part of elf.py.

    A file and every part of it is a list of numbers 0..255.  Simplifications:
    - the file does not change while it is read, memory is unbounded and every
      offset can be seeked to (elf.py:2032-2037);
    - a string made by [bytes.decode()] is represented by its UTF-8 encoding;
    - the caches [_data] and [_name] are left out: they hold values that are
      determined by the file.  The cache [_symbols] is modelled, see
      [symbols_call]. *)
From Coq Require Import Ascii String List ZArith Bool.
From Verif Require Import Base.
Import ListNotations.
Open Scope list_scope.
Open Scope Z_scope.

Notation bytes := (list Z) (only parsing).

Definition blen (l : list Z) : Z := Z.of_nat (length l).

(** [data[0:n]] and [data[n:]] for [n >= 0] *)
Fixpoint take (n : Z) (l : list Z) : list Z :=
  match l with
  | [] => []
  | b :: r => if n <=? 0 then [] else b :: take (n - 1) r
  end.
Fixpoint drop (n : Z) (l : list Z) : list Z :=
  match l with
  | [] => []
  | b :: r => if n <=? 0 then l else drop (n - 1) r
  end.

(** [data[offset:offset + cnt]] *)
Definition slice (data : bytes) (offset cnt : Z) : bytes := take cnt (drop offset data).

(** [data[i]] with Python's negative indices *)
Definition py_index (data : bytes) (i : Z) : res Z :=
  let j := if i <? 0 then blen data + i else i in
  if j <? 0 then Err IndexError
  else match drop j data with b :: _ => Ok b | [] => Err IndexError end.

(** ** Reading values *)

(** Elf.read, elf.py:2032-2037 *)
Definition read (file : bytes) (offset count : Z) : res bytes :=
  let data := slice file offset count in
  if blen data =? count then Ok data else Err Elf_Exception.

(** [int.from_bytes(l, byteorder, signed=False)]; [big] is [byteorder == 'big'] *)
Fixpoint le_value (l : bytes) : Z :=
  match l with [] => 0 | b :: r => b + 256 * le_value r end.
Definition from_bytes (big : bool) (l : bytes) : Z := le_value (if big then rev l else l).

(** [int.from_bytes(l, byteorder, signed=True)] *)
Definition from_bytes_signed (big : bool) (l : bytes) : Z :=
  let v := from_bytes big l in
  if 2 * v <? 256 ^ blen l then v else v - 256 ^ blen l.

(** Elf.get_int, elf.py:2063-2066: no check that the bytes are there *)
Definition get_int (big : bool) (data : bytes) (size offset : Z) (signed : bool) : Z * Z :=
  let l := slice data offset size in
  ((if signed then from_bytes_signed big l else from_bytes big l), offset + size).

(** get_uint8 ... get_uint128, elf.py:2068-2084 *)
Definition get_uint (big : bool) (size : Z) (data : bytes) (offset : Z) : Z * Z :=
  get_int big data size offset false.

(** get_sint8 ... get_sint128, elf.py:2086-2102 *)
Definition get_sint (big : bool) (size : Z) (data : bytes) (offset : Z) : Z * Z :=
  get_int big data size offset true.

(** Elf.get_bytes, elf.py:2053-2056: no check that the bytes are there *)
Definition get_bytes (cnt : Z) (data : bytes) (offset : Z) : bytes * Z :=
  (slice data offset cnt, offset + cnt).

(** the bytes before the first zero byte *)
Fixpoint until_zero (l : bytes) : option (list Z) :=
  match l with
  | [] => None
  | b :: r => if b =? 0 then Some [] else option_map (cons b) (until_zero r)
  end.

(** Elf.get_string, elf.py:2058-2061 *)
Definition get_string (data : bytes) (offset : Z) : res (list Z * Z) :=
  match until_zero (drop offset data) with
  | Some s => Ok (s, offset + blen s + 1)
  | None => Err ValueError
  end.

(** Elf.get_uleb128, elf.py:2111-2120; [acc] is the local variable [res] *)
Fixpoint uleb_loop (l : bytes) (idx acc : Z) : res (Z * Z) :=
  match l with
  | [] => Err IndexError
  | b :: r =>
      let acc' := Z.lor acc (Z.shiftl (Z.land b 127) (idx * 7)) in
      if Z.land b 128 =? 0 then Ok (acc', idx + 1) else uleb_loop r (idx + 1) acc'
  end.
Definition get_uleb128 (data : bytes) (offset : Z) : res (Z * Z) :=
  do (v, n) <- uleb_loop (drop offset data) 0 0; Ok (v, offset + n).

(** Elf.get_sleb128, elf.py:2122-2137: the sign is taken from the byte before the number *)
Definition get_sleb128 (data : bytes) (offset : Z) : res (Z * Z) :=
  do (value, offset_new) <- get_uleb128 data offset;
  do msb <- py_index data (offset - 1);
  if Z.land msb 64 =? 0 then Ok (value, offset_new)
  else Ok (Z.lor value (- Z.shiftl 1 ((offset_new - offset) * 7)), offset_new).

(** [struct.unpack_from] with the sizes of the fields for a format: B 1, H 2, L 4, Q 8 *)
Fixpoint unpack (big : bool) (fmt : list Z) (data : bytes) : list Z :=
  match fmt with
  | [] => []
  | n :: fmt' => from_bytes big (take n data) :: unpack big fmt' (drop n data)
  end.
Definition calcsize (fmt : list Z) : Z := fold_right Z.add 0 fmt.

(** [struct.calcsize] for a format without byte order: the sizes and alignments of the machine's
    C compiler.  L is a long, which has 8 bytes on 64-bit Linux and macOS; this is what the
    model is of (4 bytes on Windows, where the result is that of [calcsize]).
    [o] is the number of bytes before the fields *)
Fixpoint native_size (o : Z) (fmt : list Z) : Z :=
  match fmt with
  | [] => o
  | n :: fmt' => let k := if n =? 4 then 8 else n in native_size ((o + k - 1) / k * k + k) fmt'
  end.

(** Elf.get_fmt, elf.py:2049-2051 *)
Definition get_fmt (big : bool) (fmt : list Z) (data : bytes) (offset : Z) : res (list Z * Z) :=
  if blen data - offset <? calcsize fmt then Err StructError
  else Ok (unpack big fmt (drop offset data), offset + calcsize fmt).

(** ** Headers *)

(** elf.py:1334-1352; the 16 bytes of [e_ident] are kept apart *)
Record ehdr := Ehdr {
  e_ident : bytes; e_type : Z; e_machine : Z; e_version : Z; e_entry : Z; e_phoff : Z; e_shoff : Z;
  e_flags : Z; e_ehsize : Z; e_phentsize : Z; e_phnum : Z; e_shentsize : Z; e_shnum : Z; e_shstrndx : Z }.

(** elf.py:1355-1370 *)
Record phdr := Phdr {
  p_type : Z; p_offset : Z; p_vaddr : Z; p_paddr : Z; p_filesz : Z; p_memsz : Z; p_flags : Z; p_align : Z }.

(** elf.py:1372-1403 *)
Record xshdr := XShdr {
  x_name : Z; x_type : Z; x_flags : Z; x_addr : Z; x_offset : Z; x_size : Z; x_link : Z; x_info : Z;
  x_addralign : Z; x_entsize : Z }.

(** elf.py:1406-1442; [x_strndx] is [_strndx] *)
Record xsym := XSym {
  x_strndx : Z; x_stname : Z; x_value : Z; x_stsize : Z; x_stinfo : Z; x_stother : Z; x_shndx : Z }.

(** Elf_Ehdr.FMT32/FMT64 without '16s', elf.py:1336-1337 *)
Definition ehdr_fmt (is64 : bool) : list Z :=
  if is64 then [2; 2; 4; 8; 8; 8; 4; 2; 2; 2; 2; 2; 2] else [2; 2; 4; 4; 4; 4; 4; 2; 2; 2; 2; 2; 2].
(** elf.py:1357-1358 *)
Definition phdr_fmt (is64 : bool) : list Z :=
  if is64 then [4; 4; 8; 8; 8; 8; 8; 8] else [4; 4; 4; 4; 4; 4; 4; 4].
(** elf.py:1374-1375 *)
Definition shdr_fmt (is64 : bool) : list Z :=
  if is64 then [4; 4; 8; 8; 8; 8; 4; 4; 8; 8] else [4; 4; 4; 4; 4; 4; 4; 4; 4; 4].
(** elf.py:1408-1409 *)
Definition sym_fmt (is64 : bool) : list Z :=
  if is64 then [4; 1; 1; 2; 8; 8] else [4; 4; 4; 1; 1; 2].

(** [Elf_Ehdr( *hdr)]: fields in the order of the class; another number of fields
    would be a [TypeError] *)
Definition mk_ehdr (ident : bytes) (v : list Z) : res ehdr :=
  match v with
  | [a; b; c; d; e; f; g; h; i; j; k; l; m] => Ok (Ehdr ident a b c d e f g h i j k l m)
  | _ => Err TypeError
  end.
Definition mk_phdr (v : list Z) : res phdr :=
  match v with [a; b; c; d; e; f; g; h] => Ok (Phdr a b c d e f g h) | _ => Err TypeError end.
Definition mk_xshdr (v : list Z) : res xshdr :=
  match v with [a; b; c; d; e; f; g; h; i; j] => Ok (XShdr a b c d e f g h i j) | _ => Err TypeError end.
(** elf.py:1424-1442 *)
Definition mk_xsym (is64 : bool) (link : Z) (v : list Z) : res xsym :=
  match v with
  | [a; b; c; d; e; f] =>
      Ok (if is64 then XSym link a e f b c d else XSym link a b c d e f)
  | _ => Err TypeError
  end.

(** Elf_Sym.type, elf.py:1450-1452 *)
Definition xsym_type (y : xsym) : Z := Z.land (x_stinfo y) 15.
(** Elf_Sym.bind and visibility, elf.py:1458-1468 *)
Definition xsym_bind (y : xsym) : Z := Z.shiftr (x_stinfo y) 4.
Definition xsym_visibility (y : xsym) : Z := Z.land (x_stother y) 3.

(** the object made by [Elf(fn)] *)
Record xelf := XElf {
  xe_file : bytes; xe_is64 : bool; xe_big : bool; xe_ehdr : ehdr; xe_phdrs : list phdr; xe_shdrs : list xshdr }.

(** [while offset < size: hdr, offset = self.get_fmt(fmt, data, offset); l.append(mk(hdr))],
    elf.py:1973-1978, 1980-1987, 2004-2007: what was appended and the exception
    that ended the loop, if any *)
Fixpoint read_table {A} (fuel : nat) (big : bool) (fmt : list Z) (mk : list Z -> res A) (data : bytes)
    (offset size : Z) : list A * option exn :=
  match fuel with
  | O => ([], Some OutOfFuel)
  | S fuel' =>
      if offset <? size then
        match get_fmt big fmt data offset with
        | Err e => ([], Some e)
        | Ok (v, offset') =>
            match mk v with
            | Err e => ([], Some e)
            | Ok a => let (l, e) := read_table fuel' big fmt mk data offset' size in (a :: l, e)
            end
        end
      else ([], None)
  end.

(** the same where an exception leaves nothing behind *)
Definition table_res {A} (r : list A * option exn) : res (list A) :=
  match r with (l, None) => Ok l | (_, Some e) => Err e end.

(** Elf.__init__, elf.py:1971-1987: one of the two header tables *)
Definition read_headers {A} (file : bytes) (big : bool) (fmt : list Z) (mk : list Z -> res A)
    (num entsize off : Z) : res (list A) :=
  if num =? 0 then Ok []
  else
    let size := num * entsize in
    do data <- read file off size;
    table_res (read_table (S (length data)) big fmt mk data 0 size).

Definition ELFMAG : bytes := [127; 69; 76; 70].  (* elf.py:1134 *)

(** Elf.__init__, elf.py:1927-1987; the header is read with the size that its fields have on this
    machine (line 1967), which is more than its size in the file *)
Definition elf_init (file : bytes) : res xelf :=
  do ident <- read file 0 16;
  if negb (take 4 ident =?= ELFMAG) then Err Elf_Exception
  else
    do ei_data <- py_index ident 5;
    do big <- (if ei_data =? 1 then Ok false else if ei_data =? 2 then Ok true else Err Elf_Exception);
    do ei_class <- py_index ident 4;
    do is64 <- (if ei_class =? 1 then Ok false else if ei_class =? 2 then Ok true else Err Elf_Exception);
    do data <- read file 0 (native_size 16 (ehdr_fmt is64));
    do (v, _) <- get_fmt big (ehdr_fmt is64) data 16;
    do h <- mk_ehdr (take 16 data) v;
    do ph <- read_headers file big (phdr_fmt is64) mk_phdr (e_phnum h) (e_phentsize h) (e_phoff h);
    do sh <- read_headers file big (shdr_fmt is64) mk_xshdr (e_shnum h) (e_shentsize h) (e_shoff h);
    Ok (XElf file is64 big h ph sh).

(** [shdrs[i]] for [i >= 0] *)
Definition nth_shdr (e : xelf) (i : Z) : res xshdr :=
  match nth_error (xe_shdrs e) (Z.to_nat i) with Some s => Ok s | None => Err IndexError end.

(** Elf_Shdr.data, elf.py:1393-1397 *)
Definition shdr_data (e : xelf) (s : xshdr) : res bytes := read (xe_file e) (x_offset s) (x_size s).

(** Elf.lookup_string, elf.py:2039-2041 *)
Definition lookup_string (e : xelf) (s : xshdr) (index : Z) : res bytes :=
  do data <- shdr_data e s;
  match until_zero (drop index data) with Some b => Ok b | None => Err ValueError end.

(** the strict UTF-8 decoder of [bytes.decode()]: does it accept the bytes? *)
Definition within (lo hi b : Z) : bool := (lo <=? b) && (b <=? hi).
Fixpoint utf8_ok (l : bytes) : bool :=
  match l with
  | [] => true
  | a :: r =>
      if within 0 127 a then utf8_ok r
      else if within 194 223 a then
        match r with b :: r' => within 128 191 b && utf8_ok r' | _ => false end
      else if within 224 239 a then
        match r with
        | b :: c :: r' => within (if a =? 224 then 160 else 128) (if a =? 237 then 159 else 191) b &&
                          within 128 191 c && utf8_ok r'
        | _ => false
        end
      else if within 240 244 a then
        match r with
        | b :: c :: d :: r' => within (if a =? 240 then 144 else 128) (if a =? 244 then 143 else 191) b &&
                               within 128 191 c && within 128 191 d && utf8_ok r'
        | _ => false
        end
      else false
  end.

(** [bytes.decode()]; UnicodeDecodeError is a ValueError *)
Definition decode (l : bytes) : res str :=
  if utf8_ok l then Ok (map (fun b => ascii_of_nat (Z.to_nat b)) l) else Err ValueError.

(** Elf_Shdr.name, elf.py:1399-1403 *)
Definition shdr_name (e : xelf) (s : xshdr) : res str :=
  do t <- nth_shdr e (e_shstrndx (xe_ehdr e));
  do b <- lookup_string e t (x_name s);
  decode b.

(** Elf_Sym.name, elf.py:1444-1448 *)
Definition xsym_name (e : xelf) (y : xsym) : res str :=
  do t <- nth_shdr e (x_strndx y);
  do b <- lookup_string e t (x_stname y);
  decode b.

(** Elf.lookup_shdr, elf.py:2043-2047 *)
Fixpoint lookup_shdr_in (e : xelf) (name : str) (l : list xshdr) : res (option xshdr) :=
  match l with
  | [] => Ok None
  | s :: r => do n <- shdr_name e s; if n =?= name then Ok (Some s) else lookup_shdr_in e name r
  end.
Definition lookup_shdr (e : xelf) (name : str) : res (option xshdr) := lookup_shdr_in e name (xe_shdrs e).

(** Elf.symbols, elf.py:1993-2009: the list built and the exception, if any *)
Definition symtab_symbols (e : xelf) (s : xshdr) : list xsym * option exn :=
  if x_size s <=? 0 then ([], None)
  else match shdr_data e s with
       | Err x => ([], Some x)
       | Ok data => read_table (S (length data)) (xe_big e) (sym_fmt (xe_is64 e))
                      (mk_xsym (xe_is64 e) (x_link s)) data 0 (x_size s)
       end.
Fixpoint symbols_loop (e : xelf) (l : list xshdr) : list xsym * option exn :=
  match l with
  | [] => ([], None)
  | s :: r =>
      if negb ((x_type s =? 2) || (x_type s =? 11)) then symbols_loop e r
      else match symtab_symbols e s with
           | (a, Some x) => (a, Some x)
           | (a, None) => let (b, x) := symbols_loop e r in (a ++ b, x)
           end
  end.
Definition symbols (e : xelf) : res (list xsym) := table_res (symbols_loop e (xe_shdrs e)).

(** one access of the property with its cache [_symbols]: the value returned or
    raised, and the cache afterwards.  The list is stored before it is filled. *)
Definition symbols_call (e : xelf) (cache : option (list xsym)) : res (list xsym) * option (list xsym) :=
  match cache with
  | Some l => (Ok l, cache)
  | None => let r := symbols_loop e (xe_shdrs e) in (table_res r, Some (fst r))
  end.

(** Elf.get_address, elf.py:2104-2109 *)
Definition get_address (e : xelf) (data : bytes) (offset : Z) : Z * Z :=
  get_uint (xe_big e) (if xe_is64 e then 8 else 4) data offset.
