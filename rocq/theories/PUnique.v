(** C94: the bytes identify what was sent *)
From Coq Require Import Lia.
From Verif Require Import SUnique SFiles LUnique LFiles.
Open Scope list_scope.
Open Scope Z_scope.

(** one action: if its bytes followed by anything are the bytes of another action
    followed by anything, they are the same action; so no action's bytes begin
    another's *)
Theorem C94_action : forall a b x y, action_wf a -> action_wf b ->
  action_layout a ++ x = action_layout b ++ y -> a = b /\ x = y.
Proof. exact action_unique. Qed.
Print Assumptions C94_action.
(** a list of actions: what begins with its bytes begins with its actions *)
Theorem C94_actions : forall l m x, Forall action_wf l -> Forall action_wf m ->
  flat_map action_layout m = flat_map action_layout l ++ x -> exists r, m = l ++ r /\ x = flat_map action_layout r.
Proof. exact actions_unique. Qed.
Print Assumptions C94_actions.
(** two commands are the same bytes exactly if they agree in all that is sent *)
Theorem C94_commands_iff : forall c d, command_wf c -> command_wf d ->
  (command_ser c = command_ser d <-> same_on_wire c d).
Proof. exact commands_iff. Qed.
Print Assumptions C94_commands_iff.
(** a tagged command whose bytes begin with those of another one is that other
    one with further actions *)
Theorem C94_command_begins : forall c d cs rest, command_wf c -> command_wf d -> c_generate c = true -> c_generate d = true ->
  command_ser c = Ok cs -> command_ser d = Ok (cs ++ rest) ->
  c_tag c = c_tag d /\ c_respond c = c_respond d
  /\ exists r, c_actions d = c_actions c ++ r /\ bytes_bits rest = flat_map action_layout r.
Proof. exact commands_prefix. Qed.
Print Assumptions C94_command_begins.
(** frames: the bytes on the line determine each frame, and where the next begins *)
Theorem C94_stream : forall l m x, line_bytes m = line_bytes l ++ x -> exists r, m = l ++ r /\ x = line_bytes r.
Proof. exact streams_unique. Qed.
Print Assumptions C94_stream.
Theorem C94_stream_injective : forall l m, line_bytes l = line_bytes m -> l = m.
Proof. exact streams_injective. Qed.
Print Assumptions C94_stream_injective.
(** every structure that is read back from its bytes is identified by them, and
    its bytes do not begin those of another one; with C18, C25, C27 to C32 and
    C38 that is every structure of the protocol *)
Theorem C94_structure : forall A (wf : A -> Prop) layout ser (parse : P A), codec wf layout ser parse ->
  forall x y, wf x -> wf y -> (ser x = ser y -> x = y) /\ forall u v, layout x ++ u = layout y ++ v -> x = y /\ u = v.
Proof. exact (fun A wf layout ser parse => codec_unique wf layout ser parse). Qed.
Print Assumptions C94_structure.
(** without a tag request, tag and flag are not in the bytes; and commands the
    conditions exclude can share bytes: a tag request among the actions of a
    command without one is the command that begins with it *)
Example C94_case :
  let nop := mkAction (Regular false false) NoOperation in
  let c g t l := mkCommand l None g t true false None in
  command_ser (c true (Some 5) [nop; nop]) = Ok [180; 5; 0; 0]
  /\ command_ser (c true (Some 6) [nop; nop]) = Ok [180; 6; 0; 0]
  /\ command_ser (c false (Some 5) [nop]) = command_ser (c false (Some 6) [nop])
  /\ command_ser (c false None [mkAction (TagReqAct true) (TagRequest (mkTag 5)); nop]) = command_ser (c true (Some 5) [nop]).
Proof. vm_compute. repeat split. Qed.
Example C94_wf : let read := mkAction (Regular true false) (ReadFileData (mkDataRequest (mkOffset 64 (mkLength 300)) (mkLength 8))) in
  let c t := mkCommand [read; read] None true (Some t) true false None in
  command_wf (c 5) /\ command_wf (c 6) /\ command_ser (c 5) = Ok [180; 5; 129; 64; 65; 44; 8; 129; 64; 65; 44; 8].
Proof.
  intros read. assert (W : action_wf read) by (vm_compute; intuition discriminate).
  assert (K : forall t, 0 <= t <= 255 -> command_wf (mkCommand [read; read] None true (Some t) true false None)).
  { intros t H. split; [exact (Forall_cons _ W (Forall_cons _ W (Forall_nil _)))|]. split; [reflexivity|]. split; [reflexivity|].
    intros _. exists t. split; [reflexivity | exact H]. }
  refine (conj (K 5 _) (conj (K 6 _) _)); [lia | lia | reflexivity].
Qed.
