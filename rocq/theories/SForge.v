(** Frames in the payload of a frame: what becomes of them when the frame around
    them is hit on the line. *)
From Verif Require Export SRecover SConverse.
Open Scope list_scope.
Open Scope Z_scope.

(** byte number [i] (from 0) is another one, the others are the same *)
Definition byte_changed (i : nat) (x y : list Z) : Prop :=
  exists before old new behind, length before = i /\ x = before ++ old :: behind /\ y = before ++ new :: behind /\ old <> new.
(** [d] is what is left of [x] when its beginning, at least one byte, is missing *)
Definition joined_late (x d : list Z) : Prop := exists lost, x = lost ++ d /\ lost <> [].

(** a command that returns content of file [id] *)
Definition file_content (id : Z) (content : list Z) : Command :=
  let d := mkData (mkOffset id (mkLength 0)) (mkLength (zlen content)) content in
  mkCommand [mkAction (Regular false false) (ReturnFileData d (try_parse_system_file d))] None false None false false None.
(** what the receiver gets of the beginning [x] of a frame: its beginning is
    missing; or one byte is another one, not the counter, type or length byte.
    No 0xC0 is among it, other than a first one. *)
Inductive broken (x y : list Z) : Prop :=
| broken_late : joined_late x y -> no_c0 y -> broken x y
| broken_byte i : byte_changed i x y -> i <> 2%nat -> i <> 3%nat -> i <> 4%nat ->
    Forall is_byte y -> no_c0 (tl y) -> broken x y.

(** the beginning of a frame with payload [a ++ rest], up to [rest] *)
Definition front (c t : Z) (a rest : list Z) : list Z := firstn (7 + length a) (frame c t (a ++ rest)).
(** opcode, file, offset and length in front of the content *)
Definition content_head (id : Z) (content : list Z) : list Z :=
  [32; id; 0] ++ (if zlen content <? 64 then [zlen content] else [64; zlen content]).
