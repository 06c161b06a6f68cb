(* Options applied to a stream parser after its creation.  A ParserOption is a function from parser to parser (/repo/options.go:4-28,
   nontransparent/parser.go:230-238); calling it on a parser in use changes the same fields as during creation, but NewParser has
   already chosen the internal machine (octetcounting/parser.go:37-41, nontransparent/parser.go:211-216). *)
From Verif Require Import Bytes Common M5424Def M5424 Bufio MOctet NonTransparentBaseDef MNT.
Local Open Scope Z_scope.

(* what is done with a parser between its creation and a stream: an option is applied, or another stream is parsed *)
Inductive oevent := OApply (o : popt) | OStream (rd : reader).
Definition olives1 (p : oparser) (v : oevent) : oparser :=
  match v with
  | OApply o => apply_opt p o
  | OStream rd => match parse_stream p rd with Some (_, p') => p' | None => p end end.
Definition olives (p : oparser) (vs : list oevent) : oparser := fold_left olives1 vs p.
Definition oapplied (vs : list oevent) : list popt := flat_map (fun v => match v with OApply o => [o] | OStream _ => [] end) vs.

Inductive nevent := NApply (o : nopt) | NStream (data : bytes) (e : ending).
Definition nevents1 (d : driver) (x : nvars) (v : nevent) : nvars :=
  match v with
  | NApply o => napply_opt x o
  | NStream data e => match nparse_stream d x data e with Some (_, y) => y | None => x end end.
Definition nevents (d : driver) (x : nvars) (vs : list nevent) : nvars := fold_left (nevents1 d) vs x.
Definition napplied (vs : list nevent) : list nopt := flat_map (fun v => match v with NApply o => [o] | NStream _ _ => [] end) vs.
