(** d7a/serial_modem_interface/parser.py:169-175: the counters of one [Parser] when
    several threads are inside [parse] (see [MInside], which does these lines in one
    step), in steps of one load or store of [self.down_counter] or
    [self.error_counter].  Which thread comes to these lines with which frame is not
    restricted here.  [pprint] (174) is left out. *)
From Verif Require Import MBase MSerial.
From Coq Require Export List. Export ListNotations.

(** where a thread stands, with the counter of its frame and the value it loaded *)
Inductive TPlace :=
| TIdle
| TLoad (c : Z)              (* 169: load down_counter *)
| TStore (c d : Z)           (* 169: store [d + 1] *)
| TTest (c : Z)              (* 170: down_counter > 255 *)
| TReset (c : Z)             (* 171: store 0 *)
| TCompare (c : Z)           (* 172: counter != down_counter *)
| TErrLoad (c : Z)           (* 173: load error_counter *)
| TErrStore (c e : Z)        (* 173: store [e + 1] *)
| TSet (c : Z).              (* 175: store the counter of the frame *)

Record Tally := mkTally { ta_down : Z; ta_errs : Z; ta_at : list TPlace }.
(** the counters of a Parser, [n] threads elsewhere *)
Definition tally_of (p : SParser) (n : nat) : Tally := mkTally (sp_down p) (sp_errs p) (repeat TIdle n).

Fixpoint move (i : nat) (y : TPlace) (l : list TPlace) : list TPlace :=
  match l, i with
  | [], _ => []
  | _ :: r, O => y :: r
  | x :: r, S i => x :: move i y r
  end.
(** the step of a thread that stands at [x], parser.py:169-175: both attributes and its new place *)
Definition tally_go (d e : Z) (x : TPlace) : option (Z * Z * TPlace) :=
  match x with
  | TIdle => None
  | TLoad c => Some (d, e, TStore c d)
  | TStore c v => Some (v + 1, e, TTest c)
  | TTest c => Some (d, e, if 255 <? d then TReset c else TCompare c)
  | TReset c => Some (0, e, TCompare c)
  | TCompare c => Some (d, e, if c =? d then TIdle else TErrLoad c)
  | TErrLoad c => Some (d, e, TErrStore c e)
  | TErrStore c v => Some (d, v + 1, TSet c)
  | TSet c => Some (c, e, TIdle)
  end.
(** thread [i] comes to line 169 with a frame that has counter [c]; thread [i] goes on *)
Inductive TLabel := TFrame (i : nat) (c : Z) | TGo (i : nat).
Definition tally_step (w : Tally) (l : TLabel) : option Tally :=
  match l with
  | TFrame i c => match nth_error (ta_at w) i with
                  | Some TIdle => Some (mkTally (ta_down w) (ta_errs w) (move i (TLoad c) (ta_at w)))
                  | _ => None
                  end
  | TGo i => match nth_error (ta_at w) i with
             | Some x => match tally_go (ta_down w) (ta_errs w) x with
                         | Some (d, e, y) => Some (mkTally d e (move i y (ta_at w)))
                         | None => None
                         end
             | None => None
             end
  end.
Fixpoint tally_run (w : Tally) (ls : list TLabel) : option Tally :=
  match ls with
  | [] => Some w
  | l :: r => match tally_step w l with Some w' => tally_run w' r | None => None end
  end.
