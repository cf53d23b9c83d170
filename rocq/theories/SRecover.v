(** Damage on the line: bytes that belong to no frame, before frames. *)
From Verif Require Export SSerial.

(** [l] begins with a complete frame, and its CRC is right *)
Definition starts_frame (l : list Z) : Prop :=
  exists c t payload rest, is_byte c /\ is_byte t /\ is_payload payload /\ l = frame c t payload ++ rest.
(** the bytes so far are the beginning of what may become a frame: C0, then 00, then
    fewer bytes than a header has, or fewer bytes than the header announces *)
Inductive unfinished : list Z -> Prop :=
| unfinished_sync : unfinished [192]
| unfinished_header r : (length r < 5)%nat -> unfinished (192 :: 0 :: r)
| unfinished_payload c t len h l body : zlen body < len ->
    unfinished (192 :: 0 :: c :: t :: len :: h :: l :: body).

(** no frame with a right CRC starts inside the damage [d], when [after] follows it *)
Definition harmless (d after : list Z) : Prop :=
  forall pre d', d = pre ++ d' -> d' <> [] -> ~ starts_frame (d' ++ after).
(** nothing that starts inside the damage is unfinished at the end of [after] *)
Definition settled (d after : list Z) : Prop :=
  forall pre d', d = pre ++ d' -> d' <> [] -> ~ unfinished (d' ++ after).

(** ** Intact frames and damage in any order *)
Inductive Piece := Intact (x : Sent) | Damaged (d : list Z).
Definition piece_bytes (x : Piece) : list Z := match x with Intact x => sent_frame x | Damaged d => d end.
Definition on_line (l : list Piece) : list Z := flat_map piece_bytes l.
Definition intact (l : list Piece) : list Sent :=
  flat_map (fun x => match x with Intact x => [x] | Damaged _ => [] end) l.
(** every damage is harmless and settled, in front of what follows it, and what
    follows it (if anything) starts with a sync byte *)
Fixpoint line_ok (skip : bool) (l : list Piece) : Prop :=
  match l with
  | [] => True
  | Intact x :: r => sent_ok skip x /\ line_ok skip r
  | Damaged d :: r => Forall is_byte d /\ harmless d (on_line r) /\ settled d (on_line r)
      /\ (on_line r = [] \/ exists q, on_line r = 192 :: q) /\ line_ok skip r
  end.
