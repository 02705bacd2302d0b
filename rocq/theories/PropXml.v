(** Property C75: the XML descriptions given to GDB are well-formed and say what they should. *)
From Coq Require Import String ZArith List Bool Lia ZifyBool ZifyNat.
From Verif Require Import Base World MemSim Platform BaseLemmas TextLemmas MemSpec DumpSpec NumSpec PlatSpec XmlSpec PlatThms PlatSess MemThms MemHist2 MemInv MemThms3 MemEx PropMem PropPlat PropText.
Import ListNotations.
Open Scope Z_scope.

Definition run (s : mode * list event) (t : list Z) : mode * list event := fold_left reads t s.

Lemma run_app s a b : run s (a ++ b) = run (run s a) b.
Proof. apply fold_left_app. Qed.

(** Characters that may occur in a value as they are. *)
Definition plain (c : Z) : Prop := c <> 34 /\ c <> 60 /\ c <> 38.

Lemma run_value n l k v es t : Forall plain t -> run (InValue n l k v, es) t = (InValue n l k (v ++ t), es).
Proof.
  intro H. revert v. induction H as [|c t (H1 & H2 & H3) H IH]; intro v; [now rewrite app_nil_r|]. cbn [run fold_left reads].
  assert (E1 : (c =? 34) = false) by lia. assert (E2 : ((c =? 60) || (c =? 38)) = false) by lia. rewrite E1, E2. fold (run (InValue n l k (v ++ [c]), es) t).
  rewrite IH, <- app_assoc. reflexivity.
Qed.

Lemma value_plain ds n : value_of 16 ds n -> Forall plain ds.
Proof.
  induction 1 as [|ds n c d H IH D]; [constructor|]. apply Forall_app. split; [exact IH|]. constructor; [|constructor]. destruct D as [D _]. unfold hex_value in D. unfold plain. repeat (destruct (_ && _) eqn:?E in D; [lia|]). discriminate.
Qed.

(** One entry of the map. *)
Lemma run_line es flash a b : Forall plain a -> Forall plain b ->
  run (InText [], es) (s2b "<memory type=""" ++ s2b (if flash : bool then "flash" else "ram") ++ s2b """ start=""0x" ++ a ++ s2b """ length=""0x" ++ b ++
    s2b """>" ++ (if flash then s2b " <property name=""blocksize"">1</property>" else []) ++ s2b "</memory>") = (InText [], es ++ memory_entry flash a b).
Proof.
  intros Ha Hb. unfold memory_entry, node. rewrite !run_app.
  destruct flash; cbv beta iota.
  - change (run (run (run (InText [], es) _) _) _) with (InValue (s2b "memory") [att "type" "flash"] (s2b "start") (s2b "0x"), es). rewrite (run_value _ _ _ _ _ a Ha).
    change (run (InValue ?n ?l ?k ?v, es) (s2b """ length=""0x")) with (InValue n (l ++ [(k, v)]) (s2b "length") (s2b "0x"), es). rewrite (run_value _ _ _ _ _ b Hb).
    change (run (run (run (InValue ?n ?l ?k ?v, es) _) _) _) with (InText [], ((((es ++ [Open n (l ++ [(k, v)])]) ++ [Open (s2b "property") [att "name" "blocksize"]]) ++ [Content (s2b "1")]) ++ [Close (s2b "property")]) ++ [Close n]).
    rewrite <- !app_assoc. reflexivity.
  - change (run (run (run (InText [], es) _) _) _) with (InValue (s2b "memory") [att "type" "ram"] (s2b "start") (s2b "0x"), es). rewrite (run_value _ _ _ _ _ a Ha).
    change (run (InValue ?n ?l ?k ?v, es) (s2b """ length=""0x")) with (InValue n (l ++ [(k, v)]) (s2b "length") (s2b "0x"), es). rewrite (run_value _ _ _ _ _ b Hb).
    change (run (run (run (InValue ?n ?l ?k ?v, es) _) _) _) with (InText [], (es ++ [Open n (l ++ [(k, v)])]) ++ [Close n]).
    rewrite <- !app_assoc. reflexivity.
Qed.

Definition entry (r : region) : list event := memory_entry (r_ro r) (fmtX (r_base r)) (fmtX (r_size r)).

Lemma run_lines rs es : Forall (fun r => u32 (r_base r) /\ u32 (r_size r)) rs ->
  run (InText [], es) (flat_map map_line rs) = (InText [], es ++ flat_map entry rs).
Proof.
  intro H. revert es. induction H as [|r rs [Hb Hs] H IH]; intro es; [now rewrite app_nil_r|]. cbn [flat_map]. rewrite run_app, map_line_eq. unfold xml_region.
  rewrite run_line by (eapply value_plain; eapply fmtX_text; assumption). rewrite IH, <- app_assoc. reflexivity.
Qed.

Lemma balanced_entry flash a b inside es : balanced (s2b "memory-map" :: inside) true (memory_entry flash a b ++ es) = balanced (s2b "memory-map" :: inside) true es.
Proof. destruct flash; reflexivity. Qed.

Lemma map_document rs : Forall (fun r => u32 (r_base r) /\ u32 (r_size r)) rs ->
  document (map_text rs) = Some (node "memory-map" [] (flat_map entry rs)).
Proof.
  intro H. unfold document, map_text. change (fold_left reads) with (fun t s => run s t). cbv beta. rewrite !run_app.
  change (run (InText [], []) _) with (InText [], [Open (s2b "memory-map") []]). rewrite run_lines by exact H.
  change (run (InText [], ?es) (s2b "</memory-map>")) with (InText [], es ++ [Close (s2b "memory-map")]). cbv iota beta.
  assert (B : balanced [] false (([Open (s2b "memory-map") []] ++ flat_map entry rs) ++ [Close (s2b "memory-map")]) = true).
  { cbn [app balanced]. change (negb false && distinct (map fst []) && ?x) with x. clear H. induction rs as [|r rs IH]; [reflexivity|]. cbn [flat_map]. rewrite <- app_assoc. unfold entry at 1. rewrite balanced_entry. exact IH. }
  rewrite B. reflexivity.
Qed.

Lemma map_entries w xml : wf (regions w) -> xml = map_text (regions w) ->
  exists entries, document xml = Some (node "memory-map" [] (concat entries)) /\ Forall2 describes (regions w) entries.
Proof.
  intros WF ->.
  assert (HU : Forall (fun r => u32 (r_base r) /\ u32 (r_size r)) (regions w)).
  { apply Forall_forall. intros r Hr. apply In_nth_error in Hr as (i & Hi). split; [exact (wr_base _ _ _ (WF _ _ Hi))|exact (wr_size _ _ _ (WF _ _ Hi))]. }
  exists (map entry (regions w)). split; [rewrite map_document by exact HU; now rewrite flat_map_concat_map|].
  clear WF. revert HU. generalize (regions w). intros rs HU. induction HU as [|r rs [Hb Hs] H IH]; constructor; [|exact IH].
  exists (fmtX (r_base r)), (fmtX (r_size r)). split; [reflexivity|]. destruct (fmtX_text _ Hb), (fmtX_text _ Hs). auto.
Qed.

(** C75.  The memory map is a well-formed XML document: one entry for every region, in order, with its
    type, its start and its length in hexadecimal, and the block size for flash. *)
Theorem C75_map w xml w' : reachable w -> api MemorySim_GetMemoryMapXML w = Done xml w' ->
  exists entries, document xml = Some (node "memory-map" [] (concat entries)) /\ Forall2 describes (regions w) entries.
Proof. intros HR E. apply map_entries; [now apply reachable_wf|]. rewrite map_text_eq. exact (xml_value _ _ _ E). Qed.

(** C75.  So is the one that GDB gets in a debug session. *)
Theorem C75_session_map w xml w' : debug_state w -> api (pcall_run PMap) w = Done xml w' ->
  exists entries, document xml = Some (node "memory-map" [] (concat entries)) /\ Forall2 describes (regions w) entries.
Proof. intros H E. destruct (debug_state_good _ H) as (R & (HI & _) & _). apply map_entries; [exact (proj1 HI)|]. exact (C53_map_text _ _ _ H E). Qed.

Example C75_map_example : exists xml w', api MemorySim_GetMemoryMapXML w_ex = Done xml w' /\ (1 < length (regions w_ex))%nat /\ existsb r_ro (regions w_ex) = true /\
  document xml <> None /\ document (tl xml) = None /\ document (removelast xml) = None.
Proof. eexists _, _. split; [vm_compute; reflexivity|]. split; [vm_compute; lia|]. split; [vm_compute; reflexivity|]. split; [vm_compute; discriminate|]. split; vm_compute; reflexivity. Qed.

(** C75.  The target description is a well-formed XML document that declares the registers of a
    Cortex-M, the floating-point registers exactly when the crash has them. *)
Theorem C75_target w : debug_state w -> exists xml, api (pcall_run PTarget) w = Done xml (set_exn w noException []) /\
  document xml = Some (target_document (has_fpu (w_ctx w))).
Proof.
  intro H. destruct (debug_state_good _ H) as (R & (HI & HL & HB) & HF). exists (if has_fpu (w_ctx w) then g_targetFpuXML else g_targetXML).
  split; [unfold api, pcall_run, Platform_GetTargetXml, bind; rewrite fpu_run by exact HL; reflexivity|].
  destruct (has_fpu (w_ctx w)); vm_compute; reflexivity.
Qed.

Example C75_target_example : debug_state (set_exn w_plat noException []) /\ has_fpu (w_ctx w_plat) = true /\ target_document true <> target_document false /\
  document (s2b "<a><b></a></b>") = None /\ document (s2b "<a b=""1"" b=""2""/>") = None /\ document (s2b "<a></a><b/>") = None /\ document (s2b "<a b=""c""d=""e""/>") = None /\
  document (s2b "<?xml?> <a b=""1""><c/>x</a>") = Some [Open (s2b "a") [att "b" "1"]; Open (s2b "c") []; Close (s2b "c"); Content (s2b "x"); Close (s2b "a")].
Proof. split; [apply plat_debug|]. repeat split; try reflexivity. vm_compute. discriminate. Qed.

Print Assumptions C75_map.
Print Assumptions C75_session_map.
Print Assumptions C75_target.
