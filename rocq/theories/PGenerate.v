(** Property C86: the program that prints messages and their frames *)
From Coq Require Import String.
From Verif Require Import MSerial MHexTool SGenerate LGenerate.
Open Scope list_scope.
Open Scope Z_scope.

(** C86 *)
Theorem C86_shown : forall d c, command_wf c -> command_bytes c <= 255 ->
  exists payload lines, output_serial_frame d c = (lines, Ok tt) /\ sections [(d, c, payload)] lines.
Proof. exact output_section. Qed.
Print Assumptions C86_shown.
Theorem C86_refused : forall d c,
  (forall e, command_ser c = Err e -> output_serial_frame d c = ([Heading d], Err e))
  /\ forall payload, command_ser c = Ok payload -> 255 < zlen payload -> output_serial_frame d c = ([Heading d], Err ValueError).
Proof. exact output_refused. Qed.
Print Assumptions C86_refused.
(** the program stops there *)
Theorem C86_stops : forall before lines, outputs before = (lines, Ok tt) -> forall d rest,
  (forall e, outputs (before ++ (d, Err e) :: rest) = (lines, Err e))
  /\ (forall c e, command_ser c = Err e -> outputs (before ++ (d, Ok c) :: rest) = (lines ++ [Heading d], Err e))
  /\ (forall c payload, command_ser c = Ok payload -> 255 < zlen payload ->
        outputs (before ++ (d, Ok c) :: rest) = (lines ++ [Heading d], Err ValueError)).
Proof. exact stops. Qed.
Print Assumptions C86_stops.
(** the printed text given to the program that parses hexadecimal text *)
Theorem C86_read_back : forall lib id c text, command_wf c -> command_bytes c <= 255 -> printed c text ->
  exists r, tool lib T_serial id text = Ok (PrMessages r)
    /\ pr_msgs r = [(1, MCmd (command_received c))] /\ pr_errors r = [].
Proof. exact separate_tool. Qed.
Print Assumptions C86_read_back.
(** the printed frames sent one after the other: every command arrives, but each
    frame after the first looks like one that follows lost frames *)
Theorem C86_sent_in_a_row : forall lib p commands frames chunks,
  Forall (fun c => command_wf c /\ command_bytes c <= 255) commands ->
  Forall2 (fun c f => exists text, printed c text /\ written f text) commands frames ->
  sp_skip p = false -> sp_buf p = [] -> is_byte (sp_down p) -> concat chunks = concat frames -> chunks <> [] ->
  exists p', feeds lib p chunks p' (map (fun c => (1, MCmd (command_received c))) commands) [] /\ sp_buf p' = []
    /\ sp_errs p' = sp_errs p
       + (if (length commands =? 0)%nat then 0 else Z.of_nat (length commands) - (if sp_down p =? 255 then 1 else 0)).
Proof. exact separate. Qed.
Print Assumptions C86_sent_in_a_row.
(** the program itself *)
Theorem C86_program : forall rnd, (forall i, is_byte (rnd i)) ->
  exists lines commands, generate_messages rnd = (lines, Ok tt) /\ length commands = 6%nat /\ Forall command_wf commands
    /\ sections (triples titles commands (payloads rnd)) lines.
Proof. exact program. Qed.
Print Assumptions C86_program.

(** reading the ID file, with tag 7 *)
Example C86_case : command_wf (the_command 4 7) /\ command_bytes (the_command 4 7) = 12
  /\ printed (the_command 4 7) [99; 48; 48; 48; 48; 48; 48; 49; 48; 99; 101; 97; 50; 49; 98; 52;
            48; 55; 51; 50; 100; 55; 48; 50; 48; 48; 49; 48; 48; 49; 48; 49; 48; 48; 48; 48; 48; 56].
Proof.
  refine (conj _ (conj eq_refl _)); [apply the_wf; unfold is_byte; vm_compute; split; discriminate|].
  exists ""%string. vm_compute. auto 6.
Qed.
(** two such frames, sent to a fresh parser: both count as following a loss *)
Example C86_two : let f := [192; 0; 0; 1; 12; 234; 33; 180; 7; 50; 215; 2; 0; 16; 1; 1; 0; 0; 8] in
  Forall2 (fun c f => exists text, printed c text /\ written f text) [the_command 4 7; the_command 4 7] [f; f]
  /\ exists p r, sparse true (new_parser false) (f ++ f) = (p, Ok r) /\ length (pr_msgs r) = 2%nat /\ sp_errs p = 2.
Proof.
  assert (X : exists text, printed (the_command 4 7) text /\ written [192; 0; 0; 1; 12; 234; 33; 180; 7; 50; 215; 2; 0; 16; 1; 1; 0; 0; 8] text).
  { eexists. split; [exact (proj2 (proj2 C86_case))|]. apply LHexTool.tool_bytes_iff. vm_compute. reflexivity. }
  split; [repeat constructor; exact X|]. eexists. eexists. vm_compute. repeat split.
Qed.
Example C86_long : exists c payload, command_ser c = Ok payload /\ 255 < zlen payload
  /\ output_serial_frame "long" c = ([Heading "long"], Err ValueError).
Proof.
  exists (mkCommand [mkAction (Regular false false) (WriteFileData (mkData (mkOffset 64 (mkLength 0)) (mkLength 252) (repeat 0 252)))]
    None false None false false None). eexists. vm_compute. repeat split.
Qed.
