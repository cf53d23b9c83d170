(** C90: the list of actions that [describe_actions] gives *)
From Coq Require Import String.
From Verif Require Import MBase MOperands MSysFiles MAlp MAsDict MPrint MDescribe SAsDict SPrint SDescribe LDescribe.
Open Scope string_scope.
Open Scope Z_scope.

(** However Python writes numbers and the like: the description of a command is
    the texts of its actions, in order, separated by a comma and a blank; … *)
Theorem C90_lists_actions : forall leaf c, tidy leaf -> constructed c -> ~ loose_end c ->
  describe_actions leaf c = Ok (listing (action_texts leaf c)).
Proof. exact lists_actions. Qed.
Print Assumptions C90_lists_actions.
(** … in every case commas and blanks at the very end are left out, and nothing
    else. *)
Theorem C90_trimmed : forall leaf c, tidy leaf -> constructed c ->
  exists d, describe_actions leaf c = Ok d /\ trimmed (listing (action_texts leaf c)) d.
Proof. exact trimmed_listing. Qed.
Print Assumptions C90_trimmed.
(** Something is left out exactly if the last action brings a firmware version
    whose hash ends in a comma or blank. *)
Theorem C90_loose_end_lost : forall leaf c d, tidy leaf -> constructed c -> loose_end c ->
  describe_actions leaf c = Ok d -> d <> listing (action_texts leaf c).
Proof. exact loose_lost. Qed.
Print Assumptions C90_loose_end_lost.
(** Every received command can be described, and every command built. *)
Theorem C90_received : forall leaf n s c s', tidy leaf -> alp_parse n s = Ok (c, s') ->
  exists d, describe_actions leaf c = Ok d /\ trimmed (listing (action_texts leaf c)) d.
Proof. exact received_described. Qed.
Print Assumptions C90_received.
Theorem C90_built : forall leaf rnd actions gen tag resp c, tidy leaf ->
  (forall a, In (Some a) actions -> constructed_op (a_op a)) -> mk_command rnd actions gen tag resp = Ok c ->
  exists d, describe_actions leaf c = Ok d /\ trimmed (listing (action_texts leaf c)) d.
Proof. exact built_described. Qed.
Print Assumptions C90_built.
(** So the description is not always the list of the texts: a short hash, which
    the library itself fills up with blanks on the wire, loses them again. *)
Theorem C90_complete_refuted : ~ (forall leaf n s c s', tidy leaf -> alp_parse n s = Ok (c, s') ->
  describe_actions leaf c = Ok (listing (action_texts leaf c))).
Proof. exact complete_refuted. Qed.
Print Assumptions C90_complete_refuted.
(** Non-vacuity: a command with two actions, described; and the hash "123",
    filled up with four blanks, which are lost. *)
Example C90_case :
  tidy sample_leaf /\
  exists c s', alp_parse 8 (stream_of [1; 6; 0; 3; 1; 7; 4; 2]) = Ok (c, s') /\ ~ loose_end c
    /\ describe_actions sample_leaf c
       = Ok (codes "ReadFileData: file-id=6, offset=0, length=3, ReadFileData: file-id=7, offset=4, length=2").
Proof. exact describe_case. Qed.
Example C90_case_loose :
  exists c s', alp_parse 21 (stream_of [32; 2; 0; 17; 1; 1; 0; 1; 97; 98; 99; 100; 101; 102; 49; 50; 51; 32; 32; 32; 32]) = Ok (c, s')
    /\ loose_end c /\ constructed c
    /\ describe_actions sample_leaf c
       = Ok (codes "Received FirmwareVersionFile content: d7ap v1.1, filesystem v0.1, application_name=abcdef, git_sha1=123").
Proof. exact describe_loose_case. Qed.
