(** * Model of the chip descriptions and of [_get_memory_types] (memorymap.py:1431-1455).

    The yaml files of chip_info are transcribed below as the values [yaml.safe_load] gives
    for them: a plain integer is an integer, anything else a string.  Keys are in file
    order, which is the order of the dict. *)
From Coq Require Import Ascii String List ZArith Bool.
From Verif Require Import Base MemMap PyStr Pipeline Table.
Import ListNotations.
Open Scope list_scope.
Open Scope Z_scope.

Inductive yscalar := YInt (n : Z) | YStr (s : str).
(** one memory type of a file; [y_secondary] and [y_name] are optional keys *)
Record yentry := YEntry { y_key : str; y_primary : yscalar; y_length : yscalar; y_secondary : option yscalar; y_name : option str }.

(** ** [eval] of an arithmetic expression, memorymap.py:1443-1446

    Sums, differences and products of integer literals with signs, which is all the files
    contain; any other expression is an error here although Python may know its value. *)
Inductive token := TNum (n : Z) | TPlus | TMinus | TStar.
(** characters of a number: a run of characters other than blanks and operators *)
Definition is_op (c : ascii) : option token :=
  if c =?= "+"%char then Some TPlus else if c =?= "-"%char then Some TMinus else if c =?= "*"%char then Some TStar else None.
Definition is_blank (c : ascii) : bool := (c =?= " "%char) || (c =?= "009"%char).
Definition end_word (w : str) (l : list token) : res (list token) :=
  match w with
  | [] => Ok l
  | _ => match int_unsigned (rev w) with Some n => Ok (TNum n :: l) | None => Err SyntaxError end
  end.
(** [w] is the current word, reversed *)
Fixpoint tokens (s w : str) : res (list token) :=
  match s with
  | [] => end_word w []
  | c :: s' =>
    if is_blank c then do l <- tokens s' []; end_word w l
    else match is_op c with
         | Some t => do l <- tokens s' []; end_word w (t :: l)
         | None => tokens s' (c :: w)
         end
  end.
(** [sum] of the finished terms, [prod] of the finished factors of the current term, sign
    of the next factor; [need] tells that a factor has to follow *)
Fixpoint eval_tokens (l : list token) (need : bool) (sum prod sgn : Z) : res Z :=
  match l, need with
  | TNum n :: l', true => eval_tokens l' false sum (prod * (sgn * n)) 1
  | TPlus :: l', true => eval_tokens l' true sum prod sgn
  | TMinus :: l', true => eval_tokens l' true sum prod (- sgn)
  | TPlus :: l', false => eval_tokens l' true (sum + prod) 1 1
  | TMinus :: l', false => eval_tokens l' true (sum + prod) 1 (-1)
  | TStar :: l', false => eval_tokens l' true sum prod 1
  | [], false => Ok (sum + prod)
  | _, _ => Err SyntaxError
  end.
Definition py_eval (s : str) : res Z := do l <- tokens s []; eval_tokens l true 0 1 1.

(** [eval(str(x))] *)
Definition eval_scalar (x : yscalar) : res Z := py_eval (match x with YInt n => show_Z n | YStr s => s end).

(** loop body, memorymap.py:1442-1451 *)
Definition load_type (e : yentry) : res chip_type :=
  do p <- eval_scalar (y_primary e);
  do l <- eval_scalar (y_length e);
  do s <- match y_secondary e with Some x => eval_scalar x | None => Ok 0 end;
  Ok (ChipType (match y_name e with Some n => n | None => y_key e end) p s l).

(** memorymap.py:1431-1455; [files] are the files of chip_info by name, an unreadable file
    is [None] *)
Definition get_memory_types (files : str -> option (list yentry)) (target : str) : res (list chip_type) :=
  match files (target ++ ".yaml") with
  | None => Err MemMapException
  | Some l => mapM load_type l
  end.

(** ** the files *)
Definition ye (k : string) (p l : yscalar) (s : option yscalar) (n : option string) : yentry :=
  YEntry (list_ascii_of_string k) p l s (option_map list_ascii_of_string n).

(** chip_info/esp32.yaml:1-31 *)
Definition yaml_esp32 : list yentry :=
  [ ye "DRAM" (YInt 0x3FFAE000) (YStr "17 * 0x2000 + 4 * 0x8000 + 4 * 0x4000") None None;
    ye "IRAM" (YInt 0x40070000) (YInt 0x50000) None None;
    ye "CACHE_I" (YInt 0x400C2000) (YInt 0xB3E000) None (Some "Flash Code"%string);
    ye "CACHE_D_1" (YInt 0x3F400000) (YInt 0x400000) None (Some "Flash Data"%string);
    ye "CACHE_D_2" (YInt 0x3F800000) (YInt 0x400000) None (Some "SPI DRAM"%string);
    ye "RTC_FAST_D" (YInt 0x3FF80000) (YInt 0x2000) (Some (YInt 0x400C0000)) (Some "RTC FAST"%string);
    ye "RTC_SLOW_D" (YInt 0x50000000) (YInt 0x2000) None (Some "RTC SLOW"%string) ].

(** chip_info/esp32c2.yaml:1-20 *)
Definition yaml_esp32c2 : list yentry :=
  [ ye "DRAM" (YInt 0x3FCA0000) (YInt 0x40000) (Some (YInt 0x40380000)) (Some "DIRAM"%string);
    ye "IRAM" (YInt 0x4037C000) (YInt 0x4000) None None;
    ye "CACHE_I" (YInt 0x42000000) (YInt 0x400000) None (Some "Flash Code"%string);
    ye "CACHE_D" (YInt 0x3C000000) (YInt 0x400000) None (Some "Flash Data"%string) ].

(** chip_info/esp32c3.yaml:1-23 *)
Definition yaml_esp32c3 : list yentry :=
  [ ye "DRAM" (YInt 0x3FC80000) (YInt 0x60000) (Some (YInt 0x40380000)) None;
    ye "IRAM" (YInt 0x4037C000) (YInt 0x4000) None None;
    ye "CACHE_I" (YInt 0x42000000) (YInt 0x800000) None (Some "Flash Code"%string);
    ye "CACHE_D" (YInt 0x3C000000) (YInt 0x800000) None (Some "Flash Data"%string);
    ye "RTC_SLOW_D" (YInt 0x50000000) (YInt 0x2000) None (Some "RTC SLOW"%string) ].

(** chip_info/esp32c5.yaml:1-24 *)
Definition yaml_esp32c5 : list yentry :=
  [ ye "DRAM" (YInt 0x40800000) (YInt 0x60000) (Some (YInt 0x40800000)) (Some "HP SRAM"%string);
    ye "CACHE_I" (YInt 0x42000000) (YInt 0x2000000) None (Some "Flash"%string);
    ye "CACHE_D" (YInt 0x42000000) (YInt 0x2000000) None None;
    ye "EXT_RAM" (YInt 0x42000000) (YInt 0x2000000) None (Some "External RAM"%string);
    ye "RTC_SLOW_D" (YInt 0x50000000) (YInt 0x4000) None (Some "LP SRAM"%string) ].

(** chip_info/esp32c6.yaml:1-21 *)
Definition yaml_esp32c6 : list yentry :=
  [ ye "DRAM" (YInt 0x40800000) (YInt 0x80000) (Some (YInt 0x40800000)) (Some "DIRAM"%string);
    ye "CACHE_I" (YInt 0x42000000) (YInt 0x1000000) None (Some "Flash Code"%string);
    ye "CACHE_D" (YInt 0x42000000) (YInt 0x1000000) None (Some "Flash Data"%string);
    ye "RTC_SLOW_D" (YInt 0x50000000) (YInt 0x4000) None (Some "LP SRAM"%string) ].

(** chip_info/esp32c61.yaml:1-25 *)
Definition yaml_esp32c61 : list yentry :=
  [ ye "DRAM" (YInt 0x40800000) (YInt 0x50000) (Some (YInt 0x40800000)) (Some "DIRAM"%string);
    ye "CACHE_I" (YInt 0x42000000) (YInt 0x2000000) None (Some "Flash Code"%string);
    ye "CACHE_D" (YInt 0x42000000) (YInt 0x2000000) None (Some "Flash Data"%string);
    ye "EXT_RAM" (YInt 0x42000000) (YInt 0x2000000) None (Some "External RAM"%string);
    ye "RTC_SLOW_D" (YInt 0x50000000) (YInt 0x4000) None (Some "LP SRAM"%string) ].

(** chip_info/esp32h2.yaml:1-21 *)
Definition yaml_esp32h2 : list yentry :=
  [ ye "DRAM" (YInt 0x40800000) (YInt 0x50000) (Some (YInt 0x40800000)) (Some "DIRAM"%string);
    ye "CACHE_I" (YInt 0x42000000) (YInt 0x1000000) None (Some "Flash Code"%string);
    ye "CACHE_D" (YInt 0x42000000) (YInt 0x1000000) None (Some "Flash Data"%string);
    ye "RTC_SLOW_D" (YInt 0x50000000) (YInt 0x1000) None (Some "LP SRAM"%string) ].

(** chip_info/esp32h21.yaml:1-17 *)
Definition yaml_esp32h21 : list yentry :=
  [ ye "DRAM" (YInt 0x40800000) (YInt 0x50000) (Some (YInt 0x40800000)) (Some "DIRAM"%string);
    ye "CACHE_I" (YInt 0x42000000) (YInt 0x1000000) None (Some "Flash"%string);
    ye "RTC_SLOW_D" (YInt 0x50000000) (YInt 0x1000) None (Some "LP SRAM"%string) ].

(** chip_info/esp32h4.yaml:1-17 *)
Definition yaml_esp32h4 : list yentry :=
  [ ye "DRAM" (YInt 0x40808000) (YInt 0x60000) (Some (YInt 0x40808000)) (Some "DIRAM"%string);
    ye "CACHE_I" (YInt 0x42000020) (YInt 0x2000000) None (Some "Flash"%string);
    ye "EXT_RAM" (YInt 0x42000020) (YInt 0x2000000) None (Some "External RAM"%string) ].

(** chip_info/esp32p4.yaml:1-33 *)
Definition yaml_esp32p4 : list yentry :=
  [ ye "DRAM" (YInt 0x4ff00000) (YInt 0xC0000) (Some (YInt 0x4ff00000)) (Some "DIRAM"%string);
    ye "CACHE_I_1" (YInt 0x40000000) (YInt 0x4000000) None (Some "Flash"%string);
    ye "CACHE_D_1" (YInt 0x40000000) (YInt 0x4000000) None None;
    ye "CACHE_I_2" (YInt 0x48000000) (YInt 0x4000000) None (Some "External RAM"%string);
    ye "CACHE_D_2" (YInt 0x48000000) (YInt 0x4000000) None None;
    ye "RTC_FAST_D" (YInt 0x30100000) (YInt 0x2000) (Some (YInt 0x30100000)) (Some "HP core RAM"%string);
    ye "RTC_SLOW_D" (YInt 0x50108000) (YInt 0x8000) (Some (YInt 0x50108000)) (Some "LP RAM"%string) ].

(** chip_info/esp32s2.yaml:1-30 *)
Definition yaml_esp32s2 : list yentry :=
  [ ye "DRAM" (YInt 0x3FFB2000) (YStr "3 * 0x2000 + 18 * 0x4000") (Some (YInt 0x40022000)) (Some "DIRAM"%string);
    ye "CACHE_I_1" (YInt 0x3F000000) (YInt 0x400000) None (Some "Flash Data"%string);
    ye "CACHE_D" (YInt 0x3F500000) (YInt 0xA80000) None (Some "SPI DRAM"%string);
    ye "CACHE_I_2" (YInt 0x40080000) (YInt 0x780000) None (Some "Flash Code"%string);
    ye "RTC_FAST_D" (YInt 0x40070000) (YInt 0x2000) (Some (YInt 0x3FF9E000)) (Some "RTC FAST"%string);
    ye "RTC_SLOW_D" (YInt 0x50000000) (YInt 0x2000) None (Some "RTC SLOW"%string) ].

(** chip_info/esp32s3.yaml:1-37 *)
Definition yaml_esp32s3 : list yentry :=
  [ ye "IRAM" (YInt 0x40370000) (YInt 0x8000) None None;
    ye "DRAM_1" (YInt 0x3FC88000) (YStr "0x8000 + 6 * 0x10000") (Some (YInt 0x40378000)) (Some "DIRAM"%string);
    ye "DRAM_2" (YInt 0x3FCF0000) (YInt 0x10000) None (Some "DRAM"%string);
    ye "CACHE_I" (YInt 0x42000000) (YInt 0x2000000) None (Some "Flash Code"%string);
    ye "CACHE_D" (YInt 0x3C000000) (YInt 0x2000000) None (Some "Flash Data"%string);
    ye "EXT_RAM" (YInt 0x3C000000) (YInt 0x2000000) None (Some "External RAM"%string);
    ye "RTC_FAST_D" (YInt 0x3ff80000) (YInt 0x2000) (Some (YInt 0x600FE000)) (Some "RTC FAST"%string);
    ye "RTC_SLOW_D" (YInt 0x50000000) (YInt 0x2000) None (Some "RTC SLOW"%string) ].

(** chip_info/esp32s31.yaml:1-21 *)
Definition yaml_esp32s31 : list yentry :=
  [ ye "DRAM" (YInt 0x2F000000) (YInt 0x80000) (Some (YInt 0x2F000000)) (Some "DIRAM"%string);
    ye "CACHE_I_1" (YInt 0x40000000) (YInt 0x4000000) None (Some "Flash"%string);
    ye "CACHE_I_2" (YInt 0x50000000) (YInt 0x4000000) None (Some "External RAM"%string);
    ye "RTC_SLOW_D" (YInt 0x2E000000) (YInt 0x8000) None (Some "LP SRAM"%string) ].

(** the directory chip_info *)
Definition chip_files : list (str * list yentry) :=
  [ (list_ascii_of_string "esp32", yaml_esp32);
    (list_ascii_of_string "esp32c2", yaml_esp32c2);
    (list_ascii_of_string "esp32c3", yaml_esp32c3);
    (list_ascii_of_string "esp32c5", yaml_esp32c5);
    (list_ascii_of_string "esp32c6", yaml_esp32c6);
    (list_ascii_of_string "esp32c61", yaml_esp32c61);
    (list_ascii_of_string "esp32h2", yaml_esp32h2);
    (list_ascii_of_string "esp32h21", yaml_esp32h21);
    (list_ascii_of_string "esp32h4", yaml_esp32h4);
    (list_ascii_of_string "esp32p4", yaml_esp32p4);
    (list_ascii_of_string "esp32s2", yaml_esp32s2);
    (list_ascii_of_string "esp32s3", yaml_esp32s3);
    (list_ascii_of_string "esp32s31", yaml_esp32s31) ].
Definition chip_info (fn : str) : option (list yentry) := dget fn (map (fun c => (fst c ++ list_ascii_of_string ".yaml", snd c)) chip_files).
