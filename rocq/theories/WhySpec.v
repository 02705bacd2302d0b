(** Specification vocabulary for the error line of a failing start-up.  Nothing here refers to the
    functions of the loaders. *)
From Coq Require Import String ZArith List Bool.
From Verif Require Import Base World MemSpec DumpSpec ElfSpec NumSpec MsgSpec CmdSpec.
Import ListNotations.
Open Scope Z_scope.

(** The addresses that the image takes. *)
Definition image_ranges (w : world) (os : list opt) (rs : list (Z * Z)) : Prop :=
  (exists f data, uses_elf os f /\ file_is w f data /\
     rs = map (fun k => (seg_address data k, seg_filesize data k)) (filter (loadable data) (seq 0 (Z.to_nat (entry_count data))))) \/
  (exists f a data n, uses_bin os f a /\ file_is w f data /\ taken_for a n /\ rs = [(n, zlen data mod 4294967296)]).

(** Why memory for the image could not be set up: none was left, or the image does not fit into the
    address space. *)
Definition no_room (w : world) (os : list opt) (c : Z) : Prop :=
  c = outOfMemoryException \/ (c = busErrorException /\ forall ms, image_parts w os ms -> ~ fit [] ms).

(** The image file with its complaint. *)
Inductive image_complaint (w : world) (os : list opt) : Z -> list Z -> Prop :=
| ic_open f : uses_image os f -> e_fs (w_env w) f = None ->
    image_complaint w os fileException (s2b "Failed to open """ ++ f ++ s2b """.")
| ic_alloc f data t : uses_image os f -> file_is w f data -> (zlen data < 9223372036854775808 -> shown t (zlen data)) ->
    image_complaint w os outOfMemoryException (s2b "Failed to allocate " ++ t ++ s2b " bytes for reading """ ++ f ++ s2b """.")
| ic_elf f data m : uses_elf os f -> file_is w f data -> elf_reported data m ->
    image_complaint w os elfFormatException m
| ic_elf_memory f data c : uses_elf os f -> file_is w f data -> no_room w os c ->
    image_complaint w os c []
| ic_bin f a data n t c : uses_bin os f a -> file_is w f data -> taken_for a n -> shown8 t n -> no_room w os c ->
    image_complaint w os c (s2b "Failed to load read-only code into memory region at address 0x" ++ t ++ s2b ".").

(** The file writes the bytes [data] in hexadecimal; one more character may follow. *)
Definition hex_of (file data : list Z) : Prop :=
  exists text more, file = text ++ more /\ renders data text /\ (length (significant more) <= 1)%nat.

(** The file writes the bytes [data] in hexadecimal, and after them a pair of characters that are not both
    hex digits. *)
Definition hex_until (file data : list Z) : Prop :=
  exists text rest x y more, file = text ++ rest /\ renders data text /\ significant rest = x :: y :: more /\
    (hex_value x = None \/ hex_value y = None).

(** The message is about the signature or the contents of a region, not about something that is missing. *)
Definition of_contents (m : list Z) : Prop :=
  m = s2b "The dump file didn't start with the expected 4-byte signature." \/
  exists t, m = s2b "The dump file failed to load RAM memory region at 0x" ++ t.

(** What a hex dump deserves that has the bytes [data] before the first pair that is none: their own
    complaint if they are a wrong start or have a region that cannot be loaded, otherwise a format error
    with no message at all. *)
Inductive hex_complaint (old : list (Z * Z)) (data : list Z) : Z -> list Z -> Prop :=
| hx_same c m : dump_complaint old data c m -> of_contents m -> hex_complaint old data c m
| hx_silent c m : dump_complaint old data c m -> ~ of_contents m -> hex_complaint old data fileFormatException []
| hx_whole d : valid d -> data = encode d -> hex_complaint old data fileFormatException [].

(** The dump file with its complaint. *)
Inductive dumpfile_complaint (w : world) (os : list opt) : Z -> list Z -> Prop :=
| dfc_open f : uses_dump os f -> e_fs (w_env w) f = None ->
    dumpfile_complaint w os fileException (s2b "Failed to open """ ++ f ++ s2b """.")
| dfc_binary f data rs c m : uses_dump os f -> file_is w f data -> looks_binary data -> image_ranges w os rs -> dump_complaint rs data c m ->
    dumpfile_complaint w os c m
| dfc_hex f text data rs c m : uses_dump os f -> file_is w f text -> looks_hex text -> hex_of text data -> image_ranges w os rs -> dump_complaint rs data c m ->
    dumpfile_complaint w os c m
| dfc_hex_bad f text data rs c m : uses_dump os f -> file_is w f text -> looks_hex text -> hex_until text data -> image_ranges w os rs -> hex_complaint rs data c m ->
    dumpfile_complaint w os c m
| dfc_log f data c : uses_dump os f -> file_is w f data -> ~ looks_binary data -> ~ looks_hex data ->
    c = outOfMemoryException \/ c = busErrorException ->
    dumpfile_complaint w os c [].

(** An alias with its complaint. *)
Inductive alias_complaint (os : list opt) : Z -> list Z -> Prop :=
| ac_alias b s r nb ns nr tb ts tr c : In (Alias b s r) os -> taken_for b nb -> taken_for s ns -> taken_for r nr ->
    shown8 tb nb -> shown8 tr nr -> shown_signed ts ns -> c = outOfMemoryException \/ c = busErrorException ->
    alias_complaint os c (s2b "Failed to create alias of 0x" ++ tb ++ s2b " to 0x" ++ tr ++ s2b " of size " ++ ts ++ s2b ".").

(** What start-up with these options complains about: the error and its message. *)
Definition startup_complaint (w : world) (os : list opt) (c : Z) (m : list Z) : Prop :=
  image_complaint w os c m \/ dumpfile_complaint w os c m \/ alias_complaint os c m.

(** The message tells which file cannot be used, or that a log cannot be read a second time. *)
Definition names_file (os : list opt) (m : list Z) : Prop :=
  (exists f, uses_image os f /\ (m = s2b "Failed to open """ ++ f ++ s2b """." \/ m = s2b "Failed to get file size of """ ++ f ++ s2b """." \/
                                 m = s2b "Failed to read """ ++ f ++ s2b """.")) \/
  (exists f, uses_dump os f /\ (m = s2b "Failed to open """ ++ f ++ s2b """." \/ m = s2b "Failed to open the """ ++ f ++ s2b """ dump file." \/
                                m = s2b "Failed to open """ ++ f ++ s2b """ GDB log.")) \/
  m = s2b "Failed to rewind GDB log for second pass.".

(** The dump file with its complaint, when the file seems to end where reading it fails for the first time:
    what was read of it is [part].  A log is taken for granted, too, if the start of the file was not read. *)
Inductive part_complaint (w w' : world) (os : list opt) : Z -> list Z -> Prop :=
| pc_binary f part rest rs c m : uses_dump os f -> file_is w f (part ++ rest) -> rest = [] \/ fault_between w w' ->
    looks_binary (part ++ rest) -> image_ranges w os rs -> dump_complaint rs part c m ->
    part_complaint w w' os c m
| pc_hex f part rest data rs c m : uses_dump os f -> file_is w f (part ++ rest) -> rest = [] \/ fault_between w w' ->
    looks_hex (part ++ rest) -> hex_of part data -> image_ranges w os rs -> dump_complaint rs data c m ->
    part_complaint w w' os c m
| pc_hex_bad f part rest data rs c m : uses_dump os f -> file_is w f (part ++ rest) -> rest = [] \/ fault_between w w' ->
    looks_hex (part ++ rest) -> hex_until part data -> image_ranges w os rs -> hex_complaint rs data c m ->
    part_complaint w w' os c m
| pc_log f data c : uses_dump os f -> file_is w f data -> (~ looks_binary data /\ ~ looks_hex data) \/ fault_between w w' ->
    c = outOfMemoryException \/ c = busErrorException ->
    part_complaint w w' os c [].

(** What start-up with these options complains about when files may fail. *)
Definition faulty_complaint (w w' : world) (os : list opt) (c : Z) (m : list Z) : Prop :=
  (c = fileException /\ names_file os m) \/
  (c <> fileException /\ (image_complaint w os c m \/ part_complaint w w' os c m \/ alias_complaint os c m)).
