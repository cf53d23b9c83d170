(** What generate_messages.py has to print *)
From Coq Require Import String.
From Verif Require Export Bits MAlp MAsDict SCommand SSerial SHexTool MGenerate.
Open Scope list_scope.
Open Scope Z_scope.

(** two digits per byte, lower case, nothing between them *)
Definition lower (c : Z) : Prop := 48 <= c <= 57 \/ 97 <= c <= 102.
Definition lower_hex (bytes text : list Z) : Prop := digits_of bytes text /\ Forall lower text.

(** the section for one command: its description, the command as plain data, and
    the frame with counter 0 that carries its bytes *)
Inductive sections : list (string * Command * list Z) -> list Line -> Prop :=
| sections_nil : sections [] []
| sections_cons d c payload text rest lines :
    command_ser c = Ok payload -> lower_hex (frame 0 1 payload) text -> sections rest lines ->
    sections ((d, c, payload) :: rest)
      (Heading d :: Text "command:" :: Dict (as_dict (o_command c)) :: Text "serial frame:" :: HexText text :: lines).

(** [text] was printed for [c] *)
Definition printed (c : Command) (text : list Z) : Prop :=
  exists d, In (HexText text) (fst (output_serial_frame d c)).

(** ** The six messages; [r] is the tag of the command: tag request with
    response, forward to D7ASP with configuration, one action *)
Definition titles : list string :=
  ["Return file data, with QoS, unicast"; "Return file data, with QoS, broadcast";
   "Return file data, without QoS, broadcast"; "Return file data, with QoS, unicast";
   "Read ID file, with QoS, broadcast"; "Dormant session, write file"]%string.
Definition ten_bytes : list Z := [32; 64; 0; 10; 1; 2; 3; 4; 5; 6; 7; 8; 9; 10].
Definition payload_of (i : nat) (r : Z) : list Z :=
  [180; r; 50; 215] ++
  match i with
  | 0%nat => [1; 0; 32; 0; 36; 222; 240; 1; 83; 126; 139; 129] ++ ten_bytes
  | 1%nat => [1; 0; 16; 2] ++ ten_bytes
  | 2%nat => [0; 0; 16; 1] ++ ten_bytes
  | 3%nat => [2; 0; 32; 2; 222; 173; 190; 239; 202; 254; 186; 190] ++ ten_bytes
  | 4%nat => [2; 0; 16; 1; 1; 0; 0; 8]
  | _ => [2; 83; 32; 33; 224; 2; 38; 0; 1; 123; 56; 143; 4; 64; 0; 1; 0]
  end.
Definition payloads (rnd : nat -> Z) : list (list Z) := map (fun i => payload_of i (rnd i)) (seq 0 6).
(** titles, commands and payloads side by side *)
Fixpoint triples (ds : list string) (cs : list Command) (ps : list (list Z)) : list (string * Command * list Z) :=
  match ds, cs, ps with
  | d :: ds, c :: cs, p :: ps => (d, c, p) :: triples ds cs ps
  | _, _, _ => []
  end.
