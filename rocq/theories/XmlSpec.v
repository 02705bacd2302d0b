(** A reader for the part of XML that GDB needs: prolog, elements with attributes, text.  It knows
    nothing about the program that writes the documents. *)
From Coq Require Import String ZArith List Bool.
From Verif Require Import Base World NumSpec.
Import ListNotations.
Open Scope Z_scope.

Inductive event :=
| Open (name : list Z) (attributes : list (list Z * list Z))
| Close (name : list Z)
| Content (text : list Z).

(** Where the reader is: in text, after "<", in the name of an element, between attributes, in the name
    of an attribute, after its "=", in its value, after its value, after the "/" of an empty element, in
    a closing tag, in "<?...?>" (and after a "?" in it), in "<!...>" (and in a quoted string in it). *)
Inductive mode :=
| InText (t : list Z)
| InTag
| InName (n : list Z)
| InElement (n : list Z) (l : list (list Z * list Z))
| InKey (n : list Z) (l : list (list Z * list Z)) (k : list Z)
| AtValue (n : list Z) (l : list (list Z * list Z)) (k : list Z)
| InValue (n : list Z) (l : list (list Z * list Z)) (k v : list Z)
| AfterValue (n : list Z) (l : list (list Z * list Z))
| AfterSlash (n : list Z) (l : list (list Z * list Z))
| InClose (n : list Z)
| InProlog (question : bool)
| InDecl (quoted : bool)
| Malformed.

Definition blank (c : Z) : bool := (c =? 32) || (c =? 9) || (c =? 10) || (c =? 13).
Definition name_start (c : Z) : bool := ((65 <=? c) && (c <=? 90)) || ((97 <=? c) && (c <=? 122)) || (c =? 95).
Definition name_char (c : Z) : bool := name_start c || ((48 <=? c) && (c <=? 57)) || (c =? 45) || (c =? 46).

(** Text between tags counts unless it is blank. *)
Definition with_text (t : list Z) (es : list event) : list event := if forallb blank t then es else es ++ [Content t].

(** One character. *)
Definition reads (s : mode * list event) (c : Z) : mode * list event :=
  let (m, es) := s in
  match m with
  | InText t => if c =? 60 then (InTag, with_text t es) else if (c =? 62) || (c =? 38) then (Malformed, es) else (InText (t ++ [c]), es)
  | InTag => if c =? 47 then (InClose [], es) else if c =? 63 then (InProlog false, es) else if c =? 33 then (InDecl false, es)
             else if name_start c then (InName [c], es) else (Malformed, es)
  | InName n => if name_char c then (InName (n ++ [c]), es) else if blank c then (InElement n [], es)
                else if c =? 47 then (AfterSlash n [], es) else if c =? 62 then (InText [], es ++ [Open n []]) else (Malformed, es)
  | InElement n l => if blank c then (InElement n l, es) else if name_start c then (InKey n l [c], es)
                     else if c =? 47 then (AfterSlash n l, es) else if c =? 62 then (InText [], es ++ [Open n l]) else (Malformed, es)
  | InKey n l k => if name_char c then (InKey n l (k ++ [c]), es) else if c =? 61 then (AtValue n l k, es) else (Malformed, es)
  | AtValue n l k => if c =? 34 then (InValue n l k [], es) else (Malformed, es)
  | InValue n l k v => if c =? 34 then (AfterValue n (l ++ [(k, v)]), es) else if (c =? 60) || (c =? 38) then (Malformed, es)
                       else (InValue n l k (v ++ [c]), es)
  | AfterValue n l => if blank c then (InElement n l, es) else if c =? 47 then (AfterSlash n l, es)
                      else if c =? 62 then (InText [], es ++ [Open n l]) else (Malformed, es)
  | AfterSlash n l => if c =? 62 then (InText [], es ++ [Open n l; Close n]) else (Malformed, es)
  | InClose n => if c =? 62 then (InText [], es ++ [Close n]) else if name_char c then (InClose (n ++ [c]), es) else (Malformed, es)
  | InProlog q => if c =? 63 then (InProlog true, es) else if q && (c =? 62) then (InText [], es) else (InProlog false, es)
  | InDecl q => if c =? 34 then (InDecl (negb q), es) else if negb q && (c =? 62) then (InText [], es)
                else if negb q && (c =? 60) then (Malformed, es) else (InDecl q, es)
  | Malformed => (Malformed, es)
  end.

(** Every tag is closed in turn, there is one outermost element with all the text inside, and no
    attribute is given twice. *)
Fixpoint distinct (l : list (list Z)) : bool :=
  match l with
  | [] => true
  | x :: t => negb (existsb (bytes_eqb x) t) && distinct t
  end.
Fixpoint balanced (inside : list (list Z)) (begun : bool) (es : list event) : bool :=
  match es with
  | [] => match inside with [] => begun | _ => false end
  | Open n l :: t => (match inside with [] => negb begun | _ => true end) && distinct (map fst l) && balanced (n :: inside) true t
  | Close n :: t => match inside with [] => false | m :: rest => bytes_eqb m n && balanced rest begun t end
  | Content _ :: t => match inside with [] => false | _ => balanced inside begun t end
  end.

(** The document that a text is, if it is one. *)
Definition document (text : list Z) : option (list event) :=
  match fold_left reads text (InText [], []) with
  | (InText t, es) => if forallb blank t && balanced [] false es then Some es else None
  | _ => None
  end.

(** ** What GDB expects *)

Local Open Scope string_scope.

(** An attribute and an element without content. *)
Definition att (k v : string) : list Z * list Z := (s2b k, s2b v).
Definition leaf (n : string) (l : list (list Z * list Z)) : list event := [Open (s2b n) l; Close (s2b n)].
Definition node (n : string) (l : list (list Z * list Z)) (content : list event) : list event := Open (s2b n) l :: content ++ [Close (s2b n)].

(** The entry of the memory map for [length] bytes at [start] (both hexadecimal digits). *)
Definition memory_entry (flash : bool) (start length : list Z) : list event :=
  node "memory" [att "type" (if flash then "flash" else "ram"); (s2b "start", s2b "0x" ++ start)%list; (s2b "length", s2b "0x" ++ length)%list]
    (if flash then node "property" [att "name" "blocksize"] [Content (s2b "1")] else []).

(** It describes a region of the simulator. *)
Definition describes (r : region) (e : list event) : Prop :=
  exists start length, e = memory_entry (r_ro r) start length /\
   value_of 16 start (r_base r) /\ start <> [] /\ value_of 16 length (r_size r) /\ length <> [].

(** The target description: registers by GDB's feature, with their size and what GDB needs to know. *)
Definition word_reg (n : string) : list event := leaf "reg" [att "name" n; att "bitsize" "32"].
Definition typed_reg (n t : string) : list event := leaf "reg" [att "name" n; att "bitsize" "32"; att "type" t].
Definition numbered_reg (n k : string) : list event := leaf "reg" [att "name" n; att "bitsize" "32"; att "regnum" k].
Definition double_reg (n : string) : list event := leaf "reg" [att "name" n; att "bitsize" "64"; att "type" "ieee_double"].
Definition core_feature : list event :=
  node "feature" [att "name" "org.gnu.gdb.arm.m-profile"]
    (flat_map word_reg ["r0"; "r1"; "r2"; "r3"; "r4"; "r5"; "r6"; "r7"; "r8"; "r9"; "r10"; "r11"; "r12"] ++
     typed_reg "sp" "data_ptr" ++ word_reg "lr" ++ typed_reg "pc" "code_ptr" ++ numbered_reg "xpsr" "25")%list.
Definition system_feature : list event :=
  node "feature" [att "name" "org.gnu.gdb.arm.m-system"] (numbered_reg "msp" "26" ++ numbered_reg "psp" "27")%list.
Definition fpu_feature : list event :=
  node "feature" [att "name" "org.gnu.gdb.arm.vfp"]
    (flat_map double_reg ["d0"; "d1"; "d2"; "d3"; "d4"; "d5"; "d6"; "d7"; "d8"; "d9"; "d10"; "d11"; "d12"; "d13"; "d14"; "d15"] ++
     leaf "reg" [att "name" "fpscr"; att "bitsize" "32"; att "type" "int"; att "group" "float"])%list.
Definition target_document (fpu : bool) : list event :=
  node "target" [] (core_feature ++ system_feature ++ (if fpu then fpu_feature else []))%list.
