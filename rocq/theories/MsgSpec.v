(** Specification vocabulary for the messages about dumps and executables that cannot be loaded.
    Nothing here refers to the functions of the loaders. *)
From Coq Require Import String ZArith List Bool.
From Verif Require Import Base World MemSpec DumpSpec ElfSpec NumSpec.
Import ListNotations.
Open Scope Z_scope.

(** ** Dumps *)

(** How a dump starts: version 2, or version 3. *)
Definition starts_v2 : list Z := s2b "cC" ++ [2; 0].
Definition starts_v3 : list Z := s2b "cC" ++ [3; 0].
Definition start_of (v2 : bool) : list Z := if v2 then starts_v2 else starts_v3.

(** The text shows the 32-bit number [n] as eight hexadecimal digits. *)
Definition shown8 (t : list Z) (n : Z) : Prop := value_of 16 t n /\ length t = 8%nat.
(** The text shows the number in decimal. *)
Definition shown (t : list Z) (n : Z) : Prop := value_of 10 t n /\ t <> [].

(** The text shows the 32-bit number in decimal as a signed one: from 2^31 on as a negative number. *)
Definition shown_signed (t : list Z) (n : Z) : Prop :=
  (n < 2147483648 -> shown t n) /\ (2147483648 <= n -> exists u, t = s2b "-" ++ u /\ shown u (4294967296 - n)).

(** [n] bytes from address [a] do not fit below 2^32, or some of these addresses are taken. *)
Definition clashes (taken : list (Z * Z)) (a n : Z) : Prop :=
  4294967296 < a + n \/ exists r, In r taken /\ ~ apart r (a, n).

(** The dump with these bytes, loaded next to memory in the ranges [old], deserves this error and this
    message: the first part of it that is missing or wrong. *)
Inductive dump_complaint (old : list (Z * Z)) (data : list Z) : Z -> list Z -> Prop :=
| dc_signature : zlen data < 4 ->
    dump_complaint old data fileFormatException (s2b "The dump file was too short to contain the 4-byte signature.")
| dc_wrong : 4 <= zlen data -> firstn 4 data <> starts_v2 -> firstn 4 data <> starts_v3 ->
    dump_complaint old data fileFormatException (s2b "The dump file didn't start with the expected 4-byte signature.")
| dc_flags v2 t : data = start_of v2 ++ t -> zlen t < 4 ->
    dump_complaint old data fileFormatException (s2b "The dump file was too short to contain the flags.")
| dc_integer v2 flags t : data = start_of v2 ++ le 4 flags ++ t -> u32 flags -> zlen t < (if v2 then 68 else 76) ->
    dump_complaint old data fileFormatException (s2b "The dump file was too short to contain the integer registers.")
| dc_psr v2 flags regs t : data = start_of v2 ++ le 4 flags ++ words regs ++ t -> u32 flags -> length regs = (if v2 then 17 else 19)%nat -> zlen t < 4 ->
    dump_complaint old data fileFormatException (s2b "The dump file was too short to contain the exception PSR.")
| dc_float v2 flags regs psr t : data = start_of v2 ++ le 4 flags ++ words regs ++ le 4 psr ++ t ->
    u32 flags -> Z.odd flags = true -> length regs = (if v2 then 17 else 19)%nat -> zlen t < 132 ->
    dump_complaint old data fileFormatException (s2b "The dump file was too short to contain the floating point registers.")
| dc_header d t : valid d -> data = encode d ++ t -> 0 < zlen t < 8 -> t <> overflow_mark ->
    dump_complaint old data fileFormatException (s2b "The dump file contained a truncated memory region header.")
| dc_overflow d : valid d -> data = encode d ++ overflow_mark ->
    dump_complaint old data stackOverflowException (s2b "The dump file ended with an indication that CrashCatcher detected a stack overflow.")
| dc_region d a e t c ta te : valid d -> data = encode d ++ le 4 a ++ le 4 e ++ t -> u32 a -> u32 e ->
    (c = fileFormatException /\ zlen t < (e - a) mod 4294967296) \/
    (c = busErrorException /\ clashes (old ++ map range_in (d_mem d)) a ((e - a) mod 4294967296)) \/
    c = outOfMemoryException ->
    shown8 ta a -> shown8 te e ->
    dump_complaint old data c (s2b "The dump file failed to load RAM memory region at 0x" ++ ta ++ s2b " - 0x" ++ te ++ s2b ".").

(** ** Executables *)

(** The file with these bytes, meant to be an executable, deserves this message: the first check that it
    does not pass.  Entries are checked and loaded one by one. *)
Inductive elf_complaint (b : list Z) : list Z -> Prop :=
| ec_short : zlen b < 52 ->
    elf_complaint b (s2b "ELF was too short to contain valid header.")
| ec_magic : 52 <= zlen b -> firstn 4 b <> [127; 69; 76; 70] ->
    elf_complaint b (s2b "ELF header doesn't start with expected magic ELF identifier.")
| ec_class : 52 <= zlen b -> firstn 4 b = [127; 69; 76; 70] -> num b 4 1 <> 1 ->
    elf_complaint b (s2b "ELF header doesn't contain 32-bit flag.")
| ec_order : 52 <= zlen b -> firstn 4 b = [127; 69; 76; 70] -> num b 4 1 = 1 -> num b 5 1 <> 1 ->
    elf_complaint b (s2b "ELF header doesn't contain little endian flag.")
| ec_type : 52 <= zlen b -> firstn 4 b = [127; 69; 76; 70] -> num b 4 1 = 1 -> num b 5 1 = 1 -> num b 16 2 <> 2 ->
    elf_complaint b (s2b "ELF header doesn't contain executable flag.")
| ec_offset : has_header b -> table_offset b = 0 ->
    elf_complaint b (s2b "ELF header contains an invalid offset of 0 for the page headers.")
| ec_count : has_header b -> table_offset b <> 0 -> entry_count b = 0 ->
    elf_complaint b (s2b "ELF header contains an invalid page header entry count of 0.")
| ec_size t : has_header b -> table_offset b <> 0 -> entry_count b <> 0 -> entry_size b < 32 -> shown t (entry_size b) ->
    elf_complaint b (s2b "ELF header contains a page header entry size of " ++ t ++ s2b ", which is smaller than the expected size of 32.")
| ec_entry k tk ta : has_header b -> has_table b -> Z.of_nat k < entry_count b -> (forall j, (j < k)%nat -> entry_good b j) ->
    ~ entry_inside b k -> shown tk (Z.of_nat k) -> shown ta (entry_at b k) ->
    elf_complaint b (s2b "ELF page header entry " ++ tk ++ s2b " is at an invalid file offset of " ++ ta ++ s2b ".")
| ec_contents k tf tl : has_header b -> has_table b -> Z.of_nat k < entry_count b -> (forall j, (j < k)%nat -> entry_good b j) ->
    entry_inside b k -> loadable b k = true -> ~ contents_inside b k ->
    shown tf (seg_offset b k) -> shown tl (seg_offset b k + seg_filesize b k - 1) ->
    elf_complaint b (s2b "ELF failed to load entry from file at offsets " ++ tf ++ s2b " to " ++ tl ++ s2b ".")
| ec_none : has_header b -> has_table b -> (forall k, Z.of_nat k < entry_count b -> entry_good b k /\ loadable b k = false) ->
    elf_complaint b (s2b "ELF contained no entries which were loadable and had a valid non-zero filesz <= to memsz.").

(** What the loadable entries describe ends within the first 2 GB of a file. *)
Definition low_entries (b : list Z) : Prop :=
  forall k, Z.of_nat k < entry_count b -> entry_inside b k -> loadable b k = true -> seg_offset b k + seg_filesize b k <= 2147483648.

(** What is said instead: the same, but where the contents of an entry would end past 2 GB, their offsets
    are shown as signed numbers. *)
Inductive elf_reported (b : list Z) : list Z -> Prop :=
| er_right m : elf_complaint b m -> elf_reported b m
| er_far k tf tl : has_header b -> has_table b -> Z.of_nat k < entry_count b -> (forall j, (j < k)%nat -> entry_good b j) ->
    entry_inside b k -> loadable b k = true -> ~ contents_inside b k -> 2147483648 < seg_offset b k + seg_filesize b k ->
    shown_signed tf (seg_offset b k) -> shown_signed tl (seg_offset b k + seg_filesize b k - 1) ->
    elf_reported b (s2b "ELF failed to load entry from file at offsets " ++ tf ++ s2b " to " ++ tl ++ s2b ".").
