(** Specification for C77: clocks and schedules. *)
From Verif Require Export MTime.

(** ** Clocks *)
Definition never_back (clock : Z -> Z) : Prop := forall a b, a <= b -> clock a <= clock b.
Definition honest (clock : Z -> Z) : Prop := forall a b, clock b - clock a = b - a.
(** it may be set forward, not back *)
Definition keeps_up (clock : Z -> Z) : Prop := forall a b, a <= b -> b - a <= clock b - clock a.
(** an honest clock that is set at the instant [at_] by [d] microseconds *)
Definition set_by (at_ d : Z) (t : Z) : Z := if t <? at_ then t else t + d.

(** ** Order of the steps of the waiting thread; a sleep lasts at least 50 ms *)
Fixpoint in_order (after : Z) (looks : list Look) : Prop :=
  match looks with
  | [] => True
  | k :: r => after <= lk_flag k <= lk_clock k /\ in_order (lk_clock k + 50000) r
  end.
Definition last_look (looks : list Look) : Look := last looks (mkLook 0 0).
Definition schedule (began : Z) (looks : list Look) (final returned : Z) : Prop :=
  in_order began looks /\ lk_clock (last_look looks) <= final <= returned.

(** ** A computer that is not overloaded: no step takes more than [e], no sleep
    more than 50 ms and [e] *)
Fixpoint brisk (e : Z) (after : Z) (looks : list Look) : Prop :=
  match looks with
  | [] => True
  | k :: r => lk_flag k <= after + e /\ lk_clock k <= lk_flag k + e /\ brisk e (lk_clock k + 50000) r
  end.
Definition prompt (e began : Z) (looks : list Look) (final returned : Z) : Prop :=
  brisk e began looks /\ final <= lk_clock (last_look looks) + e /\ returned <= final + e.

(** ** Answers as the reader thread files them *)
Definition filed (w : Waited) : Prop := forall a, In a (w_answers w) -> an_appended a <= an_flagged a.
(** the final answer is complete at the instant [t] *)
Definition complete_by (w : Waited) (t : Z) : Prop :=
  exists a, In a (w_answers w) /\ c_completed (an_command a) = true /\ an_flagged a <= t.
(** the commands that have arrived by [t], in order *)
Inductive arrived_by (t : Z) : list Answer -> list Command -> Prop :=
| arrived_none : arrived_by t [] []
| arrived_yes a l cs : an_appended a <= t -> arrived_by t l cs -> arrived_by t (a :: l) (an_command a :: cs)
| arrived_no a l cs : t < an_appended a -> arrived_by t l cs -> arrived_by t (a :: l) cs.
