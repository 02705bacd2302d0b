(** Property C64: the communication channel on Windows; and what counts as a connection on POSIX. *)
From Coq Require Import ZArith List Bool Lia.
From Verif Require Import Base World Comm MemSpec PlatSpec PlatSess CommWin WinSpec MemEx.
Import ListNotations.
Open Scope Z_scope.

Lemma w_recv_run w : let c := w_con w in let k b := mkCon (c_polls c) (S (c_reads c)) (c_writes c) b (c_out c) in
  api (wcall_run CReceive) w =
  match e_read (w_env w) (c_reads c) with
  | RdByte b => Done [schar b] (set_exn (set_con w (k true)) noException [])
  | _ => Raised fileException (set_exn (set_con w (k (c_connected c))) fileException [])
  end.
Proof.
  cbv zeta. unfold api, wcall_run, num, win_receiveChar, bind, win_ReadStdIn, throw, set_connected, modw, ret.
  change (w_env (set_exn w noException [])) with (w_env w). change (w_con (set_exn w noException [])) with (w_con w). destruct (e_read _ _); reflexivity.
Qed.
Lemma w_send_run ch w : let c := w_con w in let k l := mkCon (c_polls c) (c_reads c) (S (c_writes c)) (c_connected c) l in
  api (wcall_run (CSend ch)) w =
  if e_write (w_env w) (c_writes c) then Done [] (set_exn (set_con w (k (c_out c ++ [ch mod 256]))) noException [])
  else Raised fileException (set_exn (set_con w (k (c_out c))) fileException []).
Proof.
  cbv zeta. unfold api, wcall_run, nothing, win_sendChar, bind, win_WriteStdOut, throw, ret.
  change (w_env (set_exn w noException [])) with (w_env w). change (w_con (set_exn w noException [])) with (w_con w). destruct (e_write _ _); reflexivity.
Qed.
Lemma w_hasdata_run w : let c := w_con w in
  api (wcall_run CHasData) w = Done [match e_poll (w_env w) (c_polls c) with PollYes => 1 | _ => 0 end]
    (set_exn (set_con w (mkCon (S (c_polls c)) (c_reads c) (c_writes c) (c_connected c) (c_out c))) noException []).
Proof.
  cbv zeta. unfold api, wcall_run, num, bind, win_hasReceiveData, try_, lift, bind, win_HasStdInDataToRead, setl, throw, ret. cbn [snd fst].
  change (w_env (set_exn (set_exn w noException []) noException [])) with (w_env w). change (w_con (set_exn (set_exn w noException []) noException [])) with (w_con w). destruct (e_poll _ _); reflexivity.
Qed.
Lemma w_connected_run w : let c := w_con w in
  api (wcall_run CConnected) w = if c_connected c then Done [1] (set_exn w noException []) else api (wcall_run CHasData) w.
Proof.
  cbv zeta. unfold api, wcall_run, num, bind, win_isGdbConnected, bind, getw, ret. change (w_con (set_exn w noException [])) with (w_con w). destruct (c_connected _); reflexivity.
Qed.

Lemma wrun_ok cs : forall w, exists w', wrun cs w = Some w' /\ w_env w' = w_env w /\
  (c_connected (w_con w') = true <-> c_connected (w_con w) = true \/ input_bytes (w_env w) (c_reads (w_con w)) (receive_calls cs) <> []) /\
  c_out (w_con w') = c_out (w_con w) ++ wsent cs w /\ wgot cs w = chars (input_bytes (w_env w) (c_reads (w_con w)) (receive_calls cs)).
Proof.
  induction cs as [|c cs IH]; intro w; cbn [wrun wsent wgot].
  - exists w. rewrite app_nil_r. cbn. intuition.
  - destruct c.
    + rewrite w_hasdata_run. cbv zeta. match goal with |- context [wrun cs ?x] => destruct (IH x) as (w' & H) end. exists w'. exact H.
    + rewrite w_recv_run. cbv zeta. unfold receive_calls, input_bytes. cbn [filter length seq flat_map]. fold (receive_calls cs).
      destruct (e_read (w_env w) (c_reads (w_con w))) eqn:EV.
      * match goal with |- context [wrun cs ?x] => destruct (IH x) as (w' & H) end. exists w'. exact H.
      * match goal with |- context [wrun cs ?x] => destruct (IH x) as (w' & H) end. exists w'. exact H.
      * match goal with |- context [wrun cs ?x] => destruct (IH x) as (w' & H1 & H2 & H3 & H4 & H5) end. exists w'. split; [exact H1|]. split; [exact H2|].
        split; [|split; [exact H4|]].
        -- rewrite H3. cbn [w_con set_con set_exn c_connected app]. split; [intros _; right; discriminate|auto].
        -- cbn [app chars map]. unfold schar. f_equal. exact H5.
    + rewrite w_send_run. cbv zeta. destruct (e_write _ _);
        (match goal with |- context [wrun cs ?x] => destruct (IH x) as (w' & H1 & H2 & H3 & H4 & H5) end; exists w'; split; [exact H1|]; split; [exact H2|]; split; [exact H3|]; split; [|exact H5]; rewrite H4).
      * cbn [w_con set_con set_exn c_out app]. rewrite <- app_assoc. reflexivity.
      * reflexivity.
    + rewrite w_connected_run. cbv zeta. destruct (c_connected (w_con w)) eqn:E.
      * match goal with |- context [wrun cs ?x] => destruct (IH x) as (w' & H1 & H2 & H3 & H4 & H5) end. exists w'. split; [exact H1|]. split; [exact H2|]. split; [|split; [exact H4|exact H5]].
        rewrite H3. cbn [w_con set_exn]. rewrite E. tauto.
      * rewrite w_hasdata_run. cbv zeta. match goal with |- context [wrun cs ?x] => destruct (IH x) as (w' & H1 & H2 & H3 & H4 & H5) end. exists w'. split; [exact H1|]. split; [exact H2|]. split; [|split; [exact H4|exact H5]].
        rewrite H3. cbn [w_con set_con set_exn c_connected w_env c_reads]. rewrite E. tauto.
Qed.

Lemma found_bytes w n : byte_found w n <-> input_bytes (w_env w) (c_reads (w_con w)) n <> [].
Proof.
  unfold byte_found, input_bytes. generalize (c_reads (w_con w)). intro k. revert k. induction n as [|n IH]; intro k; cbn [seq flat_map].
  - split; [intros (i & b & L & _); lia|intro H; destruct (H eq_refl)].
  - destruct (e_read (w_env w) k) eqn:E; cbn [app].
    + rewrite <- IH. split; intros (i & b & L & H).
      * destruct i as [|i]; [rewrite Nat.add_0_r in H; congruence|]. exists i, b. split; [lia|]. rewrite <- H. f_equal. lia.
      * exists (S i), b. split; [lia|]. rewrite <- H. f_equal. lia.
    + rewrite <- IH. split; intros (i & b & L & H).
      * destruct i as [|i]; [rewrite Nat.add_0_r in H; congruence|]. exists i, b. split; [lia|]. rewrite <- H. f_equal. lia.
      * exists (S i), b. split; [lia|]. rewrite <- H. f_equal. lia.
    + split; [discriminate|]. intros _. exists O, b. split; [lia|]. rewrite Nat.add_0_r. exact E.
Qed.

(** C64.  On Windows, after any calls on the channel, the debugger counts as connected iff a byte of the
    input was received since initialisation or input is waiting; the question itself neither raises nor
    crashes. *)
Theorem C64_connected wi w0 cs w : api StandardIComm_Init wi = Done tt w0 -> wrun cs w0 = Some w ->
  exists b w', api (wcall_run CConnected) w = Done [b] w' /\ (b = 0 \/ b = 1) /\ (b = 1 <-> byte_found w0 (receive_calls cs) \/ input_waiting w).
Proof.
  intros EI HC. destruct (wrun_ok cs w0) as (w' & E & _ & L & _). rewrite HC in E. injection E as <-. rewrite <- found_bytes in L.
  assert (F : c_connected (w_con w0) = false).
  { apply (f_equal (fun r => match r with Done _ w => c_connected (w_con w) | _ => false end)) in EI. symmetry. exact EI. }
  rewrite w_connected_run. cbv zeta. destruct (c_connected (w_con w)).
  - exists 1, (set_exn w noException []). split; [reflexivity|]. split; [auto|]. split; [|auto]. intros _. left. destruct (proj1 L eq_refl) as [X|X]; [congruence|exact X].
  - rewrite w_hasdata_run. cbv zeta. eexists _, _. split; [reflexivity|]. unfold input_waiting.
    assert (N : ~ byte_found w0 (receive_calls cs)) by (intro X; pose proof (proj2 L (or_intror X)); discriminate).
    destruct (e_poll _ _); (split; [auto|]); split; intro X; try discriminate; try (destruct X as [X|X]; [contradiction|discriminate]); auto.
Qed.

(** C64.  A poll says whether input is waiting; no sequence of calls crashes; the output is what the
    calls to send that returned gave, and the calls to receive that returned gave the bytes of the input,
    in order. *)
Theorem C64_polls w : exists b w', api (wcall_run CHasData) w = Done [b] w' /\ (b = 0 \/ b = 1) /\ (b = 1 <-> input_waiting w).
Proof. rewrite w_hasdata_run. cbv zeta. eexists _, _. split; [reflexivity|]. unfold input_waiting. destruct (e_poll _ _); (split; [auto|]); split; intro X; try discriminate; reflexivity. Qed.
Theorem C64_bytes cs w : exists w', wrun cs w = Some w' /\ c_out (w_con w') = c_out (w_con w) ++ wsent cs w /\
  wgot cs w = chars (input_bytes (w_env w) (c_reads (w_con w)) (receive_calls cs)).
Proof. destruct (wrun_ok cs w) as (w' & E & _ & _ & H). exists w'. split; [exact E|exact H]. Qed.

(** C64.  A call to receive without a byte to be read, because of an error or the end of the input, raises
    the file exception, as does a call to send that cannot write; nothing else raises. *)
Theorem C64_errors c w :
  (exists e w', api (wcall_run c) w = Raised e w') <->
  (c = CReceive /\ forall b, e_read (w_env w) (c_reads (w_con w)) <> RdByte b) \/ ((exists ch, c = CSend ch) /\ e_write (w_env w) (c_writes (w_con w)) = false).
Proof.
  destruct c.
  - rewrite w_hasdata_run. cbv zeta. split; [intros (e & w' & H); discriminate|intros [(H & _)|((ch & H) & _)]; discriminate].
  - rewrite w_recv_run. cbv zeta. destruct (e_read _ _) eqn:E.
    + split; [intros _; left; split; [reflexivity|discriminate]|intros _; eauto].
    + split; [intros _; left; split; [reflexivity|discriminate]|intros _; eauto].
    + split; [intros (e & w' & H); discriminate|intros [(_ & H)|((ch & H) & _)]; [destruct (H b eq_refl)|discriminate]].
  - rewrite w_send_run. cbv zeta. destruct (e_write _ _) eqn:E.
    + split; [intros (e & w' & H); discriminate|intros [(H & _)|(_ & H)]; discriminate].
    + split; [intros _; right; split; [eauto|reflexivity]|intros _; eauto].
  - rewrite w_connected_run. cbv zeta. destruct (c_connected (w_con w)); [|rewrite w_hasdata_run; cbv zeta];
      (split; [intros (e & w' & H); discriminate|intros [(H & _)|((ch & H) & _)]; discriminate]).
Qed.
Theorem C64_file_exception c w e w' : api (wcall_run c) w = Raised e w' -> e = fileException /\ c_out (w_con w') = c_out (w_con w).
Proof.
  destruct c.
  - rewrite w_hasdata_run. discriminate.
  - rewrite w_recv_run. cbv zeta. destruct (e_read _ _); intro H; try discriminate; injection H as <- <-; auto.
  - rewrite w_send_run. cbv zeta. destruct (e_write _ _); intro H; try discriminate. injection H as <- <-. auto.
  - rewrite w_connected_run. cbv zeta. destruct (c_connected (w_con w)); [|rewrite w_hasdata_run]; discriminate.
Qed.

Definition w_win : world :=
  w_start (mkEnv (fun _ _ => true) (fun _ => None) (fun _ => IoOk) (fun k => match k with O => PollErr | _ => PollNo end)
                 (fun k => match k with O => RdEof | 1%nat => RdByte 200 | _ => RdErr end) (fun k => Nat.eqb k 0)).
Example C64_example : exists w0 w, api StandardIComm_Init w_win = Done tt w0 /\
  wrun [CConnected; CReceive; CSend 300; CReceive; CSend 65] w0 = Some w /\
  byte_found w0 2 /\ ~ byte_found w0 1 /\ c_out (w_con w) = [44] /\ wgot [CConnected; CReceive; CSend 300; CReceive; CSend 65] w0 = [-56].
Proof.
  eexists _, _. split; [reflexivity|]. split; [vm_compute; reflexivity|].
  split; [exists 1%nat, 200; split; [lia|reflexivity]|]. split; [|split; vm_compute; reflexivity].
  intros (i & b & L & H). replace i with O in H by lia. discriminate.
Qed.

(** On POSIX the end of the input counts as well: exactly what makes a connection there. *)
Lemma received_reads cs : forall w, received cs w <-> read_returned w (receive_calls cs).
Proof.
  assert (X : forall w w' n, w_env w' = w_env w -> c_reads (w_con w') = c_reads (w_con w) -> read_returned w' n <-> read_returned w n).
  { intros w w' n E R. unfold read_returned. rewrite E, R. reflexivity. }
  induction cs as [|c cs IH]; intro w; cbn [received].
  - split; [intros []|intros (i & L & _); cbn in L; lia].
  - destruct c.
    + rewrite hasdata_run. cbv zeta. rewrite IH. rewrite X by reflexivity. change (receive_calls (CHasData :: cs)) with (receive_calls cs). split; [intros [H|H]; [discriminate|exact H]|auto].
    + rewrite recv_run. cbv zeta. change (receive_calls (CReceive :: cs)) with (S (receive_calls cs)).
      destruct (e_read (w_env w) (c_reads (w_con w))) eqn:E.
      * rewrite IH. unfold read_returned. cbn [w_con set_con set_exn w_env c_reads]. split; intros (i & L & H).
        -- exists (S i). split; [lia|]. rewrite <- plus_n_Sm. exact H.
        -- destruct i as [|i]; [rewrite Nat.add_0_r in H; congruence|]. exists i. split; [lia|]. rewrite <- plus_n_Sm in H. exact H.
      * split; [intros _|auto]. exists O. split; [lia|]. rewrite Nat.add_0_r, E. discriminate.
      * split; [intros _|auto]. exists O. split; [lia|]. rewrite Nat.add_0_r, E. discriminate.
    + rewrite send_run. cbv zeta. change (receive_calls (CSend c :: cs)) with (receive_calls cs). destruct (e_write _ _); rewrite IH, X by reflexivity; [|reflexivity].
      split; [intros [H|H]; [discriminate|exact H]|auto].
    + rewrite connected_run. cbv zeta. change (receive_calls (CConnected :: cs)) with (receive_calls cs). destruct (c_connected (w_con w)).
      * rewrite IH, X by reflexivity. split; [intros [H|H]; [discriminate|exact H]|auto].
      * rewrite hasdata_run. cbv zeta. rewrite IH, X by reflexivity. split; [intros [H|H]; [discriminate|exact H]|auto].
Qed.

Theorem C46_exactly_partial wi w0 cs w : api StandardIComm_Init wi = Done tt w0 -> crun cs w0 = Some w ->
  exists b w', api (ccall_run CConnected) w = Done [b] w' /\ (b = 0 \/ b = 1) /\ (b = 1 <-> read_returned w0 (receive_calls cs) \/ input_waiting w).
Proof.
  intros EI HC. destruct (crun_ok cs w0) as (w' & E & L & _). rewrite HC in E. injection E as <-. rewrite received_reads in L.
  assert (F : c_connected (w_con w0) = false).
  { apply (f_equal (fun r => match r with Done _ w => c_connected (w_con w) | _ => false end)) in EI. symmetry. exact EI. }
  rewrite connected_run. cbv zeta. destruct (c_connected (w_con w)).
  - exists 1, (set_exn w noException []). split; [reflexivity|]. split; [auto|]. split; [|auto]. intros _. left. destruct (proj1 L eq_refl) as [X|X]; [congruence|exact X].
  - rewrite hasdata_run. cbv zeta. eexists _, _. split; [reflexivity|]. unfold input_waiting.
    assert (N : ~ read_returned w0 (receive_calls cs)) by (intro X; pose proof (proj2 L (or_intror X)); discriminate).
    destruct (e_poll _ _); (split; [auto|]); split; intro X; try discriminate; try (destruct X as [X|X]; [contradiction|discriminate]); auto.
Qed.
Example C46_exactly_example : exists w0 w, api StandardIComm_Init w_win = Done tt w0 /\ crun [CReceive] w0 = Some w /\ read_returned w0 1 /\ ~ byte_found w0 1.
Proof.
  eexists _, _. split; [reflexivity|]. split; [vm_compute; reflexivity|]. split; [exists O; split; [lia|discriminate]|].
  intros (i & b & L & H). replace i with O in H by lia. discriminate.
Qed.

Print Assumptions C64_connected.
Print Assumptions C64_polls.
Print Assumptions C64_bytes.
Print Assumptions C64_errors.
Print Assumptions C64_file_exception.
Print Assumptions C46_exactly_partial.
