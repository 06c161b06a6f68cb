(* What the listener of a non-transparent framing parser should see (as SpecDeliver.v). *)
From Verif Require Import Bytes M5424Def M5424 MOctet NonTransparentBaseDef MNT SpecWorld SpecDeliver.

Definition as_result (r : nresult) : result := Result (nr_msg r) None.
Definition ndeliver_all (v : values) (l : list (list nresult)) (scs : list (list (list op))) : option values := deliver_all v (map (map as_result) l) scs.
Definition nmessages_of (rs : list nresult) : list message := messages_of (map as_result rs).
(* one parser of the value model (MNT.v, C44-C48, C53) reading streams one after the other *)
Fixpoint nstreams (d : driver) (x : nvars) (l : list (bytes * ending)) : option (list (list nresult)) :=
  match l with
  | [] => Some []
  | (data, e) :: r => match nparse_stream d x data e with
                      | Some (rs, y) => match nstreams d y r with Some rss => Some (rs :: rss) | None => None end
                      | None => None end
  end.
