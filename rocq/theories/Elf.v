(** libCrashDebug/src/ElfLoad.c and ElfPriv.h, function by function.  The ELF image is the list of
    its bytes; structure fields are read at their offsets (ElfPriv.h 95-124). *)
From Coq Require Import String ZArith List Bool.
From Verif Require Import Base World MemSim.
Import ListNotations.
Open Scope Z_scope.
Open Scope m_scope.

Definition SIZEOF_EHDR := 52.
Definition SIZEOF_PHDR := 32.

(** Read an [n]-byte little-endian field of the image through a pointer into it. *)
Definition blob_get (blob : list Z) (off n : Z) : M world Z :=
  if (0 <=? off) && (off + n <=? zlen blob) then ret (of_le (slice blob off n)) else fail_ub UbBlob.

(** ElfLoad.c 71-76.  [offset + size] is 32-bit arithmetic; the result is the offset. *)
Definition fetchSizedByteArray (blob : list Z) (offset size : Z) : M world Z :=
  if (zlen blob <? offset) || (zlen blob <? W (offset + size))
  then throw elfFormatException
  else ret offset.

(** Run a body that sets one local variable; if it throws, throw again with a message. *)
Definition try_msg (body : M world Z) (msg : list Z) : M world Z :=
  try_ 0 (x <- lift body;; setl x)
         (fun _ => c <- getExceptionCode;; throw_msg c msg).

(** ElfLoad.c 52-63 and 65-69. *)
Definition initLoadObject (blob : list Z) : M world Z :=
  try_msg (fetchSizedByteArray blob 0 SIZEOF_EHDR) (s2b "ELF was too short to contain valid header.").

(** ElfLoad.c 78-98.  [hdr] is the header's offset. *)
Definition validateElfHeaderContents (blob : list Z) (hdr : Z) : M world unit :=
  m <- blob_get blob hdr 4;;
  if negb (m =? of_le [127; 69; 76; 70])
  then throw_msg elfFormatException (s2b "ELF header doesn't start with expected magic ELF identifier.")
  else
  cls <- blob_get blob (hdr + 4) 1;;
  if negb (cls =? 1)
  then throw_msg elfFormatException (s2b "ELF header doesn't contain 32-bit flag.")
  else
  dat <- blob_get blob (hdr + 5) 1;;
  if negb (dat =? 1)
  then throw_msg elfFormatException (s2b "ELF header doesn't contain little endian flag.")
  else
  typ <- blob_get blob (hdr + 16) 2;;
  if negb (typ =? 2)
  then throw_msg elfFormatException (s2b "ELF header doesn't contain executable flag.")
  else
  phoff <- blob_get blob (hdr + 28) 4;;
  if phoff =? 0
  then throw_msg elfFormatException (s2b "ELF header contains an invalid offset of 0 for the page headers.")
  else
  phnum <- blob_get blob (hdr + 44) 2;;
  if phnum =? 0
  then throw_msg elfFormatException (s2b "ELF header contains an invalid page header entry count of 0.")
  else
  phentsize <- blob_get blob (hdr + 42) 2;;
  if phentsize <? SIZEOF_PHDR
  then throw_msg elfFormatException
         (s2b "ELF header contains a page header entry size of " ++ fmtd phentsize ++
          s2b ", which is smaller than the expected size of " ++ fmtu SIZEOF_PHDR ++ s2b ".")
  else ret tt.

(** ElfLoad.c 122-143 and 145-150: returns by how much entryLoadCount grows. *)
Definition loadIfFlashLoadableEntry (blob : list Z) (ph : Z) : M world Z :=
  p_type <- blob_get blob ph 4;;
  if negb (p_type =? 1) then ret 0 else
  p_filesz <- blob_get blob (ph + 16) 4;;
  if p_filesz =? 0 then ret 0 else
  p_memsz <- blob_get blob (ph + 20) 4;;
  if p_memsz <? p_filesz then ret 0 else
  p_offset <- blob_get blob (ph + 4) 4;;
  p_paddr <- blob_get blob (ph + 12) 4;;
  data <- try_msg (fetchSizedByteArray blob p_offset p_filesz)
            (s2b "ELF failed to load entry from file at offsets " ++ fmtd p_offset ++
             s2b " to " ++ fmtd (W (p_offset + p_filesz - 1)) ++ s2b ".");;
  MemorySim_CreateRegion p_paddr p_filesz ;;;
  MemorySim_LoadFromFlashImage p_paddr (skipn (Z.to_nat data) blob) p_filesz ;;;
  MemorySim_MakeRegionReadOnly p_paddr ;;;
  ret 1.

(** ElfLoad.c 100-120: entries [i] .. [i + n - 1], the next at offset [off]; returns entryLoadCount. *)
Fixpoint loadFlashLoadableEntries (n : nat) (blob : list Z) (phentsize i off count : Z) : M world Z :=
  match n with
  | O => ret count
  | S k =>
      ph <- try_msg (fetchSizedByteArray blob off SIZEOF_PHDR)
              (s2b "ELF page header entry " ++ fmtd i ++ s2b " is at an invalid file offset of " ++
               fmtu off ++ s2b ".");;
      c <- loadIfFlashLoadableEntry blob ph;;
      loadFlashLoadableEntries k blob phentsize (i + 1) (W (off + phentsize)) (W (count + c))
  end.

(** ElfLoad.c 41-50. *)
Definition ElfLoad_FromMemory (blob : list Z) : M world unit :=
  hdr <- initLoadObject blob;;
  validateElfHeaderContents blob hdr ;;;
  phoff <- blob_get blob (hdr + 28) 4;;
  phnum <- blob_get blob (hdr + 44) 2;;
  phentsize <- blob_get blob (hdr + 42) 2;;
  count <- loadFlashLoadableEntries (Z.to_nat phnum) blob phentsize 0 phoff 0;;
  if count =? 0
  then throw_msg elfFormatException
         (s2b "ELF contained no entries which were loadable and had a valid non-zero filesz <= to memsz.")
  else ret tt.
