(** The messages the readers take: what to expect. *)
From Verif Require Export SStation MDeliver.

(** the steps outside the loop over the messages *)
Definition station_labels (ls : list DeliveryLabel) : list StationLabel :=
  flat_map (fun y => match y with DStation x => [x] | DNext _ => [] end) ls.
(** all messages returned so far, with the readers they were returned to *)
Definition returned_to (d : Delivery) : list Item := items (in_results (st_in (d_st d))).
(** the messages in results of [parse] *)
Definition messages (rs : list (res PResult)) : list (Z * Msg) :=
  flat_map (fun r => match r with Ok r => pr_msgs r | Err _ => [] end) rs.
(** [a] is what is left of [b] when some entries are struck out *)
Inductive struck_out {A} : list A -> list A -> Prop :=
| so_nil : struck_out [] []
| so_keep x a b : struck_out a b -> struck_out (x :: a) (x :: b)
| so_drop x a b : struck_out a b -> struck_out a (x :: b).
(** a reader ended with an exception while it handled a message *)
Definition callback_raised (lib : bool) (d : Delivery) (ls : list DeliveryLabel) : Prop :=
  exists pre i post u, ls = pre ++ DStation (TPort (KDone i false)) :: post /\ delivery_run lib d pre = Some u /\ In i (d_busy u).
(** steps of the program itself *)
Definition delivery_program (y : DeliveryLabel) : Prop := match y with DStation x => program_step x | DNext _ => True end.
Definition delivery_rests (lib : bool) (d : Delivery) : Prop := forall y, delivery_program y -> delivery_step lib d y = None.
