(** The counters of a Parser used by several threads: what to expect. *)
From Verif Require Export MBase MSerial MTally.

(** the counters of the frames, in the order in which the threads came with them *)
Definition counters_of (ls : list TLabel) : list Z :=
  flat_map (fun l => match l with TFrame _ c => [c] | TGo _ => [] end) ls.
(** no thread is between line 169 and line 175 *)
Definition all_out (w : Tally) : Prop := Forall (eq TIdle) (ta_at w).
(** one thread at a time *)
Inductive alternately : Tally -> list TLabel -> Tally -> Prop :=
| alt_nil w : alternately w [] w
| alt_frame w i c k w1 ls w2 : tally_run w (TFrame i c :: repeat (TGo i) k) = Some w1 -> all_out w1 ->
    alternately w1 ls w2 -> alternately w (TFrame i c :: repeat (TGo i) k ++ ls) w2.
(** each counter is the successor of the one before, 0 after 255 *)
Fixpoint successive (cs : list Z) : Prop :=
  match cs with
  | a :: ((b :: _) as r) => b = (a + 1) mod 256 /\ successive r
  | _ => True
  end.
Definition counters_ok (p : SParser) : Prop := is_byte (sp_down p).
(** the Parser [p] with the counters as they are now *)
Definition counters_in (p : SParser) (w : Tally) : SParser :=
  mkSP (sp_buf p) (sp_skip p) (sp_up p) (ta_down w) (ta_errs w).
