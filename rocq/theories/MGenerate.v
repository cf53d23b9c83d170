(** d7a/serial_modem_interface/examples/generate_messages.py: prints commands
    and the serial frames for them *)
From Coq Require Import String.
From Verif Require Import MBase MCt MSp MOperands MAlp MSerial MAsDict.
Open Scope list_scope.
Open Scope Z_scope.

(** what is printed; the layout of a dictionary ([pprint]) is not modelled *)
Inductive Line := Heading (s : string) | Text (s : string) | Dict (v : Value) | HexText (chars : list Z).

(** [binascii.hexlify]: two digits per byte *)
Definition hex_char (n : Z) : Z := if n <? 10 then 48 + n else 87 + n.
Definition hexlify (bs : list Z) : list Z := flat_map (fun b => [hex_char (b / 16); hex_char (b mod 16)]) bs.

(** output_serial_frame, generate_messages.py:35-42: a new [Parser] for every
    frame *)
Definition output_serial_frame (description : string) (c : Command) : list Line * res unit :=
  match build_serial_frame (new_parser false) (command_ser c) with
  | (_, Err e) => ([Heading description], Err e)
  | (_, Ok f) =>
      ([Heading description; Text "command:"; Dict (as_dict (o_command c)); Text "serial frame:"; HexText (hexlify f)],
       Ok tt)
  end.

(** the program is a sequence of such calls; the command is made first *)
Fixpoint outputs (l : list (string * res Command)) : list Line * res unit :=
  match l with
  | [] => ([], Ok tt)
  | (d, Err e) :: _ => ([], Err e)
  | (d, Ok c) :: r =>
      match output_serial_frame d c with
      | (lines, Err e) => (lines, Err e)
      | (lines, Ok _) => let (more, e) := outputs r in (lines ++ more, e)
      end
  end.

(** [Configuration(qos=QoS(resp_mod=m), addressee=Addressee(...), dorm_to=t)] *)
Definition message_conf (m : ResponseMode) (ac : Z) (t : IdType) (i : AddrId) (dorm_to : CT) : res (option IfConfig) :=
  let! a := mk_addr ac t i NLS_NONE in
  Ok (Some (CfgD7 (mkConf (mkQoS m RETRY_NO false false) dorm_to a))).
Definition one_to_ten : list Z := [1; 2; 3; 4; 5; 6; 7; 8; 9; 10].

(** generate_messages.py:44-143; [rnd] is the random tag of the command *)
Definition message1 (rnd : Z) : res Command :=
  let! conf := message_conf RESP_ALL 0 UID (IdInt 2656824718681607041) (mkCT 0 0) in
  create_return rnd 64 one_to_ten 0 None IF_D7ASP conf.
Definition message2 (rnd : Z) : res Command :=
  let! conf := message_conf RESP_ALL 2 NOID IdNone (mkCT 0 0) in
  create_return rnd 64 one_to_ten 0 None IF_D7ASP conf.
Definition message3 (rnd : Z) : res Command :=
  let! conf := message_conf RESP_NO 1 NOID IdNone (mkCT 0 0) in
  create_return rnd 64 one_to_ten 0 None IF_D7ASP conf.
Definition message4 (rnd : Z) : res Command :=
  let! conf := message_conf RESP_ANY 2 UID (IdInt 16045690984503098046) (mkCT 0 0) in
  create_return rnd 64 one_to_ten 0 None IF_D7ASP conf.
Definition message5 (rnd : Z) : res Command :=
  let! conf := message_conf RESP_ANY 1 NOID IdNone (mkCT 0 0) in
  create_read rnd 0 8 0 IF_D7ASP conf.
(** [dorm_to=CT.compress(60 * 5)]; [None] would be refused by the schema *)
Definition message6 (rnd : Z) : res Command :=
  let! t := ct_compress (60 * 5) true in
  let! t := match t with Some t => Ok t | None => Err ValueError end in
  let! conf := message_conf RESP_ANY 33 UID (IdInt 16141505795915987087) t in
  create_write rnd 64 [0] 0 IF_D7ASP conf.

Definition generate_messages (rnd : nat -> Z) : list Line * res unit :=
  outputs [("Return file data, with QoS, unicast"%string, message1 (rnd 0%nat));
           ("Return file data, with QoS, broadcast"%string, message2 (rnd 1%nat));
           ("Return file data, without QoS, broadcast"%string, message3 (rnd 2%nat));
           ("Return file data, with QoS, unicast"%string, message4 (rnd 3%nat));
           ("Read ID file, with QoS, broadcast"%string, message5 (rnd 4%nat));
           ("Dormant session, write file"%string, message6 (rnd 5%nat))].
