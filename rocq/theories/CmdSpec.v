(** Specification vocabulary for the command line: its grammar and what the options select.
    Nothing here refers to the functions of the command line parser. *)
From Coq Require Import String ZArith List Bool Permutation.
From Verif Require Import Base World MemSim MemSpec DumpSpec ElfSpec LogSpec.
Import ListNotations.
Open Scope Z_scope.

(** ** Grammar *)

(** A whole option with its arguments. *)
Inductive opt :=
| Elf (file : list Z)
| Bin (file address : list Z)
| DumpFile (file : list Z)
| Alias (base size redirect : list Z).

(** [x] is the character [y] or its upper-case variant. *)
Definition either_case (x y : Z) : Prop := x = y \/ (97 <= y <= 122 /\ x = y - 32).
(** The argument is this option name, in any mixture of upper and lower case. *)
Definition names_option (arg : list Z) (name : string) : Prop := Forall2 either_case arg (s2b name).

(** The arguments are these options, one after the other. *)
Inductive spells : list (list Z) -> list opt -> Prop :=
| sp_nil : spells [] []
| sp_elf a f args os : names_option a "--elf" -> spells args os -> spells (a :: f :: args) (Elf f :: os)
| sp_bin a f b args os : names_option a "--bin" -> spells args os -> spells (a :: f :: b :: args) (Bin f b :: os)
| sp_dump a f args os : names_option a "--dump" -> spells args os -> spells (a :: f :: args) (DumpFile f :: os)
| sp_alias a b s r args os :
    names_option a "--alias" -> spells args os -> spells (a :: b :: s :: r :: args) (Alias b s r :: os).

Definition is_elf (o : opt) : bool := match o with Elf _ => true | _ => false end.
Definition is_bin (o : opt) : bool := match o with Bin _ _ => true | _ => false end.
Definition is_dump (o : opt) : bool := match o with DumpFile _ => true | _ => false end.
Definition is_alias (o : opt) : bool := match o with Alias _ _ _ => true | _ => false end.

(** There is an image and a dump. *)
Definition complete (os : list opt) : Prop :=
  (exists o, In o os /\ (is_elf o || is_bin o) = true) /\ exists o, In o os /\ is_dump o = true.

(** The command line is acceptable. *)
Definition acceptable (args : list (list Z)) : Prop := exists os, spells args os /\ complete os.

(** ** Order *)

(** The same options, those of the same kind in the same order. *)
Definition reordered (os os' : list opt) : Prop :=
  filter is_elf os = filter is_elf os' /\ filter is_bin os = filter is_bin os' /\
  filter is_dump os = filter is_dump os' /\ filter is_alias os = filter is_alias os'.

(** ** What is selected *)

(** [o] is the last option of its kind. *)
Definition last_such (kind : opt -> bool) (os : list opt) (o : opt) : Prop :=
  exists before after, os = before ++ o :: after /\ kind o = true /\ forallb (fun x => negb (kind x)) after = true.

(** The dump file. *)
Definition uses_dump (os : list opt) (f : list Z) : Prop := last_such is_dump os (DumpFile f).
(** The image file: an ELF executable, or a raw image for an address; --elf takes precedence. *)
Definition uses_elf (os : list opt) (f : list Z) : Prop := last_such is_elf os (Elf f).
Definition uses_bin (os : list opt) (f address : list Z) : Prop :=
  (forall o, In o os -> is_elf o = false) /\ last_such is_bin os (Bin f address).
Definition uses_image (os : list opt) (f : list Z) : Prop := uses_elf os f \/ exists a, uses_bin os f a.

(** What the image puts into memory.  [strtou32] is strtoul(..., NULL, 0) as a uint32_t. *)
Definition image_parts (w : world) (os : list opt) (ms : list (Z * list Z)) : Prop :=
  (exists f data, uses_elf os f /\ file_is w f data /\ executable data /\ ms = segments data /\ ms <> []) \/
  (exists f a data, uses_bin os f a /\ file_is w f data /\ Forall byte data /\ 0 < zlen data < 4294967296 /\
     ms = [(strtou32 a, data)]).

(** ** Dump types *)

(** [data] starts with [p]. *)
Definition starts_with (p data : list Z) : Prop := exists rest, data = p ++ rest.
Definition looks_binary (data : list Z) : Prop := starts_with (s2b "cC") data.
Definition looks_hex (data : list Z) : Prop := starts_with (s2b "6343") data.

(** ** Initial state *)

(** Nothing loaded yet: the empty simulator and a register context of zeros. *)
Definition blank_state (w : world) : world := set_mem (set_ctx w (repeat 0 216)) (mkMem [] None 0).

(** Every file consists of bytes and, if it is used as an ELF executable, is below 4 GB - 64 KB and
    has no such entries. *)
Definition files_fine (w : world) (os : list opt) : Prop :=
  (forall f data, file_is w f data -> Forall byte data) /\
  (forall f data, uses_elf os f -> file_is w f data ->
     zlen data < 4294901760 /\ no_wrap_entries data /\ starts_apart data).

(** The file is a binary dump, or a hex dump, of [d]. *)
Definition dump_text (d : dump) (data : list Z) : Prop := data = encode d \/ (renders (encode d) data /\ looks_hex data).

(** The registers (starting from zeros) after the lines of a GDB log: the last line about a register
    counts; a register without a line is 0 (0xBAADBAAD for MSP and PSP); the exception PSR is 0; the
    floating-point flag says whether one of s0..s31 is listed. *)
Definition log_context (ls : list (list Z)) (ctx : list Z) : Prop :=
  zlen ctx = 216 /\
  (forall before l after t v, ls = before ++ l :: after -> is_target t -> shows l t v -> (forall l', In l' after -> ~ mentions l' t) ->
     word_at ctx t = v) /\
  (forall t, is_target t -> (forall l, In l ls -> ~ mentions l t) -> word_at ctx t = unlisted (repeat 0 216) t) /\
  psr_word ctx = 0 /\
  (flag_bit ctx 0 = true <-> exists l i, In l ls /\ (i < 32)%nat /\ mentions l (TFloat i)).

(** The dump file [data] shows the memory [mem], and registers of which [regs] holds: it is a dump in
    binary or hex, or the log of a GDB session. *)
Inductive dump_means (data : list Z) : list (Z * list Z) -> (list Z -> Prop) -> Prop :=
| dm_dump d : valid d -> dump_text d data -> dump_means data (d_mem d) (fun ctx => ctx = context d (repeat 0 216))
| dm_log ls ms : ~ looks_binary data -> ~ looks_hex data -> lines data ls -> log_loads ls ms -> no_wrap ms ->
    dump_means data (joined ms) (log_context ls).

(** Any 1, 2 or 4 bytes of [ms] that follow one another can be read at their address. *)
Definition readable (w : world) (ms : list (Z * list Z)) : Prop :=
  forall a bs i n, In (a, bs) ms -> width n -> 0 <= i -> i + n <= zlen bs ->
    exists w', api (readN n (a + i)) w = Done (of_le (firstn (Z.to_nat n) (skipn (Z.to_nat i) bs))) w'.
(** [a] is not the address of a byte of [ms]. *)
Definition outside (ms : list (Z * list Z)) (a : Z) : Prop :=
  forall x, In x ms -> ~ (fst x <= a < fst x + zlen (snd x)).

(** ** Messages *)

(** The version text, the usage text, and the line that shows an error. *)
Definition lines_of (l : list string) : list Z := flat_map (fun x => s2b x ++ [10]) l.
Definition banner : list Z := lines_of
    ["";
     "CrashDebug - Cortex-M Post-Mortem Debugging Aid (1.7-20210805.0)";
     "";
     "Copyright (C) 2021 Adam Green";
     "This is free software; see the source for copying conditions.  There is NO";
     "warranty; not even for MERCHANTABILITY or FITNESS FOR A PARTICULAR PURPOSE.";
     ""]%string.
Definition usage : list Z := lines_of
    ["Usage: CrashDebug (--elf elfFilename | --bin imageFilename baseAddress)";
     "                   --dump dumpFilename";
     "                  [--alias baseAddress size redirectAddress]";
     "Where: NOTE: The --elf and --bin options are mutually exclusive.  Use one";
     "             or the other but not both.";
     "       --elf is used to provide the filename of the .elf image containing";
     "         the device's FLASH contents at the time of the crash.";
     "       --bin is used to provide the filename of the binary image loaded into";
     "         the device's FLASH when the crash occurred. These binary images are";
     "         typically generated by running:";
     "           ""arm-none-eabi-objcopy -O binary input.elf output.bin""";
     "         The baseAddress parameter indicates where the contents of the .bin";
     "         file was loaded into FLASH.  This address will typically be";
     "         0x00000000 unless a boot loader was in use.";
     "       --dump is used to provide the filename of the crash dump which";
     "         contains the contents of RAM and the CPU registers at the time of";
     "         the crash.  See the following link to learn more about generating";
     "         these crash dumps:";
     "           http://github.com/adamgreen/CrashDebug#crash-dump-generation";
     "       --alias is used to trap memory accesses to the region defined";
     "         by baseAddress/size and redirect them to the region at";
     "         redirectAddress. For example acesses to baseAddress will access";
     "         redirectAddress instead)."]%string.
Definition error_line (msg : list Z) : list Z := s2b "ERROR: " ++ msg ++ [10].
(** The line about an error that is not reported otherwise. *)
Definition unexpected_line (c : Z) : list Z := s2b "Encountered unexpected error: " ++ fmtd c ++ [10].
(** The message about a file that cannot be opened (the exception message has room for 1023 bytes). *)
Definition open_message (f : list Z) : list Z := firstn 1023 (s2b "Failed to open """ ++ f ++ s2b """.").

(** ** Failing start-ups *)

(** The exception has this code and message, the error, the version and the usage text have been
    written (latest first), and nothing remains: no memory, no allocated block, no open file. *)
Definition failed_clean (c : Z) (msg : list Z) (w w' : world) : Prop :=
  w_code w' = c /\ w_msg w' = msg /\ w_err w' = usage :: banner :: error_line msg :: w_err w /\
  regions w' = [] /\ m_xml (w_mem w') = None /\ Permutation (h_live (w_heap w')) (h_live (w_heap w)) /\ fs_open (w_files w') = fs_open (w_files w).

(** ** What is wrong with a command line *)

(** The argument is the name of an option. *)
Definition is_option (a : list Z) : Prop :=
  names_option a "--elf" \/ names_option a "--bin" \/ names_option a "--dump" \/ names_option a "--alias".

(** The first argument that cannot be used, after any number of whole options, calls for this message. *)
Inductive complains : list (list Z) -> list Z -> Prop :=
| co_dashes a t : ~ starts_with (s2b "--") a -> complains (a :: t) (s2b "Command line options must start with ""--"".")
| co_unknown a t : starts_with (s2b "--") a -> ~ is_option a -> complains (a :: t) (s2b """" ++ a ++ s2b """ isn't a valid command line option.")
| co_bin a t : names_option a "--bin" -> (length t < 2)%nat -> complains (a :: t) (s2b "The --bin command line option requires filename and base address.")
| co_elf a : names_option a "--elf" -> complains [a] (s2b "The --elf command line option requires filename.")
| co_dump a : names_option a "--dump" -> complains [a] (s2b "The --dump command line option requires filename.")
| co_alias a t : names_option a "--alias" -> (length t < 3)%nat -> complains (a :: t) (s2b "The --alias command line option requires baseAddress, size, and redirectAddress.")
| co_after_elf a f args m : names_option a "--elf" -> complains args m -> complains (a :: f :: args) m
| co_after_bin a f b args m : names_option a "--bin" -> complains args m -> complains (a :: f :: b :: args) m
| co_after_dump a f args m : names_option a "--dump" -> complains args m -> complains (a :: f :: args) m
| co_after_alias a b s r args m : names_option a "--alias" -> complains args m -> complains (a :: b :: s :: r :: args) m.

(** The message for the whole command line. *)
Definition complaint (args : list (list Z)) (m : list Z) : Prop :=
  complains args m \/
  exists os, spells args os /\
    (((forall o, In o os -> is_elf o || is_bin o = false) /\ m = s2b "Must provide --bin or --elf command line option.") \/
     ((exists o, In o os /\ is_elf o || is_bin o = true) /\ (forall o, In o os -> is_dump o = false) /\ m = s2b "Must provide --dump command line option.")).
