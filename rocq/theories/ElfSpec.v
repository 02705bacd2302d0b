(** Specification vocabulary for ELF executables: the parts of the file format that matter to a
    loader and what loading such a file means.  Nothing here refers to the functions of the loader.
    Offsets are integers, so they never wrap around. *)
From Coq Require Import String ZArith List Bool.
From Verif Require Import Base World MemSim MemSpec DumpSpec.
Import ListNotations.
Open Scope Z_scope.

(** ** The format *)

(** The [n]-byte little-endian number at offset [off] of the file. *)
Definition num (b : list Z) (off n : nat) : Z := of_le (firstn n (skipn off b)).

(** The file header is 52 bytes long.  It starts with 0x7F "ELF", class 1 (32 bit), data encoding 1
    (little endian); its type is 2 (executable). *)
Definition has_header (b : list Z) : Prop :=
  52 <= zlen b /\ firstn 4 b = [127; 69; 76; 70] /\ num b 4 1 = 1 /\ num b 5 1 = 1 /\ num b 16 2 = 2.

(** The program header table: where it starts, the size of an entry, the number of entries. *)
Definition table_offset (b : list Z) : Z := num b 28 4.
Definition entry_size (b : list Z) : Z := num b 42 2.
Definition entry_count (b : list Z) : Z := num b 44 2.
Definition has_table (b : list Z) : Prop := table_offset b <> 0 /\ entry_count b <> 0 /\ 32 <= entry_size b.

(** Entry [k] of the table. *)
Definition entry_at (b : list Z) (k : nat) : Z := table_offset b + Z.of_nat k * entry_size b.
Definition entry_num (b : list Z) (k field : nat) : Z := num b (Z.to_nat (entry_at b k) + field) 4.
Definition seg_type (b : list Z) (k : nat) : Z := entry_num b k 0.
Definition seg_offset (b : list Z) (k : nat) : Z := entry_num b k 4.
Definition seg_address (b : list Z) (k : nat) : Z := entry_num b k 12.
Definition seg_filesize (b : list Z) (k : nat) : Z := entry_num b k 16.
Definition seg_memsize (b : list Z) (k : nat) : Z := entry_num b k 20.

(** Entry [k] describes something to load: type 1 (PT_LOAD) with some bytes in the file, and not more
    than in memory. *)
Definition loadable (b : list Z) (k : nat) : bool :=
  (seg_type b k =? 1) && negb (seg_filesize b k =? 0) && (seg_filesize b k <=? seg_memsize b k).

(** Its physical address and contents. *)
Definition segment (b : list Z) (k : nat) : Z * list Z :=
  (seg_address b k, firstn (Z.to_nat (seg_filesize b k)) (skipn (Z.to_nat (seg_offset b k)) b)).

(** The segments of the first [n] entries, and of the file. *)
Definition segments_upto (b : list Z) (n : nat) : list (Z * list Z) := map (segment b) (filter (loadable b) (seq 0 n)).
Definition segments (b : list Z) : list (Z * list Z) := segments_upto b (Z.to_nat (entry_count b)).

(** Entry [k] lies inside the file, and so do the bytes it describes if it is loadable. *)
Definition entry_inside (b : list Z) (k : nat) : Prop := entry_at b k + 32 <= zlen b.
Definition contents_inside (b : list Z) (k : nat) : Prop := seg_offset b k + seg_filesize b k <= zlen b.
Definition entry_good (b : list Z) (k : nat) : Prop :=
  entry_inside b k /\ (loadable b k = true -> contents_inside b k).

(** A complete executable below 4 GB. *)
Definition executable (b : list Z) : Prop :=
  Forall byte b /\ zlen b < 4294967296 /\ has_header b /\ has_table b /\
  forall k, Z.of_nat k < entry_count b -> entry_good b k.

(** No loadable entry of the executable starts inside an earlier one. *)
Definition starts_apart (b : list Z) : Prop :=
  forall i j, (i < j)%nat -> Z.of_nat j < entry_count b -> loadable b i = true -> loadable b j = true ->
  ~ (seg_address b i <= seg_address b j < seg_address b i + seg_filesize b i).
(** No loadable entry describes bytes whose file offsets reach 2^32. *)
Definition no_wrap_entries (b : list Z) : Prop :=
  forall k, Z.of_nat k < entry_count b -> entry_inside b k -> loadable b k = true -> seg_offset b k + seg_filesize b k < 4294967296.

(** ** What loading it means *)

(** A read-only region of memory with these contents and no reads counted yet. *)
Definition is_rom (r : region) (x : Z * list Z) : Prop :=
  r_base r = fst x /\ r_size r = zlen (snd x) /\ r_redir r = None /\ r_data r = snd x /\
  r_ro r = true /\ r_wps r = [] /\ option_map snd (r_rc r) = Some (repeat 0 (Z.to_nat (zlen (snd x) / 2))).

(** [w'] is [w] with these read-only regions added after the existing ones and nothing else changed
    (except the heap and the exception state). *)
Definition rom_added (w w' : world) (ms : list (Z * list Z)) : Prop :=
  (exists new, regions w' = regions w ++ new /\ Forall2 is_rom new ms) /\ frame w w' /\
  m_hits (w_mem w') = m_hits (w_mem w) /\ m_xml (w_mem w') = m_xml (w_mem w).
