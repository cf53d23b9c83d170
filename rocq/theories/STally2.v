(** Several threads in one Parser, whose counters change in any way between their steps. *)
From Verif Require Export MBase MSerial MInside.
From Coq Require Export List. Export ListNotations.

Definition with_tally (d e : Z) (w : Inside) : Inside :=
  mkInside (in_store w) (in_cur w) (in_skip w) (in_up w) d e (in_places w) (in_results w).
Inductive shaken (lib : bool) : Inside -> list InLabel -> Inside -> Prop :=
| sh_nil w : shaken lib w [] w
| sh_step w x w1 ls w2 : inside_step lib w x = Some w1 -> shaken lib w1 ls w2 -> shaken lib w (x :: ls) w2
| sh_change w d e ls w2 : shaken lib (with_tally d e w) ls w2 -> shaken lib w ls w2.
