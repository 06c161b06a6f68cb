(* What the listener of a stream parser should see: each message it is given is a value of its own, appended to those it has; after each
   result it runs a script (SpecWorld.op: it may edit the messages, parse, build, write its buffers). *)
From Verif Require Import Bytes M5424Def M5424 MOctet SpecWorld.

Definition script_now (sc : list (list op)) : list op := match sc with [] => [] | x :: _ => x end.
Definition script_next (sc : list (list op)) : list (list op) := match sc with [] => [] | _ :: r => r end.
Definition vkeep (m : option message) (v : values) : values :=
  match m with Some m => Values (v_mach v) (v_buf v) (v_msgs v ++ [m]) (v_g v) (v_trace v) | None => v end.
Fixpoint deliver (v : values) (rs : list result) (sc : list (list op)) : option values :=
  match rs with
  | [] => Some v
  | r :: t => match v_ops (vkeep (r_msg r) v) (script_now sc) with Some v' => deliver v' t (script_next sc) | None => None end
  end.
(* the results of several streams, one after the other *)
Fixpoint deliver_all (v : values) (l : list (list result)) (scs : list (list (list op))) : option values :=
  match l, scs with
  | rs :: l, sc :: scs => match deliver v rs sc with Some v' => deliver_all v' l scs | None => None end
  | _, _ => Some v
  end.
(* the messages among the results *)
Definition messages_of (rs : list result) : list message := concat (map (fun r => match r_msg r with Some m => [m] | None => [] end) rs).
