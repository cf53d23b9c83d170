(** Nodes that push a value when it exceeds a threshold. *)
From Coq Require String.
From Verif Require MSchema.
From Verif Require Export SCommand SConnect SOta SModem SContent MPush.

(** a 16 bit number, most significant byte first *)
Definition word_bytes (v : Z) : list Z := [v / 256; v mod 256].
(** the number a sequence of bytes stands for, most significant byte first *)
Definition be_number (bs : list Z) : Z := fold_left (fun n b => n * 256 + b) bs 0.
Definition signed_number (bs : list Z) : Z :=
  let n := be_number bs in
  let range := 256 ^ zlen bs in
  if range <=? 2 * n then n - range else n.

(** what the D7A specification says about the query and the read action, for a
    node with the files [files]: the comparison of the bytes at the given place
    with the given value *)
Definition compares (t : CompType) (x y : Z) : bool :=
  match t with
  | C_NE => negb (x =? y) | C_EQ => x =? y | C_LT => x <? y | C_LE => x <=? y | C_GT => y <? x | C_GE => y <=? x
  end.
Definition at_offset (files : Z -> list Z) (o : Offset) (n : Z) : list Z :=
  firstn (Z.to_nat n) (skipn (Z.to_nat (len_value (off_offset o))) (files (off_id o))).
Definition query_holds (files : Z -> list Z) (q : Query) : bool :=
  let number := if ar_signed (q_params q) then signed_number else be_number in
  compares (ar_comp (q_params q)) (number (at_offset files (q_file_a q) (len_value (q_compare_length q))))
           (number (q_compare_value q)).
(** the answers of a node that carries out these actions: a failing query ends
    the execution, a read returns the file and the data *)
Fixpoint node_answers (files : Z -> list Z) (acts : list Action) : list (Z * list Z) :=
  match acts with
  | [] => []
  | a :: rest =>
      match a_op a with
      | BreakQuery q => if query_holds files q then node_answers files rest else []
      | ReadFileData d => (off_id (dr_offset d), at_offset files (dr_offset d) (len_value (dr_length d)))
                          :: node_answers files rest
      | _ => node_answers files rest
      end
  end.

(** ** The files written by the push example *)
(** break query: arithmetic comparison (2) with a value, unsigned, greater than
    (4), 2 bytes, file 0x40 offset 0; read 2 bytes of file 0x40 *)
Definition threshold_action (v : Z) : list Z := [9; 68; 2] ++ word_bytes v ++ [64; 0] ++ [1; 64; 0; 2].
(** D7ASP, no response, no dormant session, no id, access class 1 *)
Definition push_interface_bytes : list Z := [215; 0; 0; 16; 1].
(** permissions: everything but encryption and execution; action on write,
    transient; action file 0x41, interface file 0x42, size and allocation 2 *)
Definition sensor_header : list Z := [63; 160; 65; 66; 0; 0; 0; 2; 0; 0; 0; 2].
(** tag request; forward to D7ASP: all respond, 3 neighbours, access class 0x11;
    write both files; write the header of file 0x40 *)
Definition push_bytes (rnd v : Z) : list Z :=
  [180; rnd] ++ [50; 215; 1; 0; 0; 17; 3] ++ [4; 65; 0; 11] ++ threshold_action v
  ++ [4; 66; 0; 5] ++ push_interface_bytes ++ [6; 64] ++ sensor_header.

(** the response of a node comes with the D7 interface status of the node *)
Definition status_of (r : Command) (s : Status) : Prop :=
  exists a o, c_status r = Some a /\ a_op a = InterfaceStatus o /\ iso_id o = 215 /\ iso_status o = Some s.
(** the ids of the nodes behind the responses that do not report completion *)
Inductive reported : list Msg -> list AddrId -> Prop :=
| reported_nil : reported [] []
| reported_completed r rs ids : c_completed r = true -> reported rs ids -> reported (MCmd r :: rs) ids
| reported_node r s rs ids : c_completed r = false -> status_of r s -> reported rs ids ->
    reported (MCmd r :: rs) (ad_id (st_addressee s) :: ids).
(** ** The other programs *)
(** the messages [l] do not report completion *)
Definition not_completed (m : Msg) : Prop := exists c, m = MCmd c /\ c_completed c = false.
(** read [n] bytes of file 0x40 *)
Definition nodes_bytes (rnd : Z) : list Z := [180; rnd; 50; 215; 1; 0; 16; 17; 1; 64; 0; 2].
(** the messages the callback is called with while no synchronous command is
    being executed: those of the types up to 3 that are not a command without a
    tag *)
Definition untagged (m : Msg) : bool := match m with MCmd c => match c_tag c with None => true | Some _ => false end | _ => false end.
Definition called (msgs : list (Z * Msg)) : list Msg :=
  map snd (filter (fun x => (fst x <=? 3) && negb (untagged (snd x))) msgs).
