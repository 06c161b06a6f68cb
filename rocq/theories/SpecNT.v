(* What a non-transparently framed stream is, independently of the parser. *)
From Verif Require Import Bytes M5424Def M5424 SpecOctet NonTransparentBaseDef MNT.
Local Open Scope Z_scope.

(* the result for a message (answer: that of a fresh RFC 5424 machine); the result for the bytes after the last trailer: a reading
   error unless the message is itself bad *)
Definition nanswer (best : bool) (m : bytes) : nresult := NResult (fst (answer best m)) (option_map NMachine (snd (answer best m))).
Definition nanswer_tail (best : bool) (m : bytes) (e : rderr) : nresult :=
  NResult (fst (answer best m)) (Some (match snd (answer best m) with Some x => NMachine x | None => NRead e end)).

(* a message: it starts with '<' and does not contain the trailer directly followed by '<' *)
Definition one_message (t : byte) (m : bytes) : Prop := (exists u, m = "<"%byte :: u) /\ forall a b, m <> a ++ t :: "<"%byte :: b.
(* each message followed by the trailer *)
Definition framed (t : byte) (ms : list bytes) : bytes := concat (map (fun m => m ++ [t]) ms).

(* the options given to NewParser: the last valid WithTrailer counts, line feed by default *)
Definition nopts_best (opts : list nopt) : bool := existsb (fun o => match o with NOBestEffort => true | _ => false end) opts.
Definition nopts_trailer (opts : list nopt) : byte :=
  fold_left (fun b o => match o with NOTrailer 0 => "010"%byte | NOTrailer 1 => x00 | _ => b end) opts "010"%byte.

(* the results for a stream read by a new parser, and by a parser that has read other streams before *)
Definition nfresh (d : driver) (opts : list nopt) (data : bytes) (e : ending) : option (list nresult) :=
  nresults (nparse_stream d (nnew_parser opts) data e).
Fixpoint nafter (d : driver) (x : nvars) (streams : list (bytes * ending)) : nvars :=
  match streams with [] => x | (data, e) :: r => match nparse_stream d x data e with Some (_, y) => nafter d y r | None => x end end.
Definition nemitted (d : driver) (opts : list nopt) (before : list (bytes * ending)) (data : bytes) (e : ending) : option (list nresult) :=
  nresults (nparse_stream d (nafter d (nnew_parser opts) before) data e).
