(* nontransparent/parser.go: the variables of the framing automaton and the meaning of its leaf statements.
   The control flow of Exec is in GenNT.v. *)
From Verif Require Import Bytes GotoLang M5424Def M5424.
Local Open Scope Z_scope.

(* errors of the reading side (github.com/leodido/ragel-machinery, outside /repo): the stream ended without a trailer, the
   reader failed, the automaton refused a window *)
Inductive rderr := RdUnexpectedEOF | RdOther (code : N) | RdFsm.
(* syslog.Result (/repo/syslog.go:50-55): the error is that of the RFC 5424 machine or the reading error *)
Inductive nerr := NMachine (e : perr) | NRead (e : rderr).
Record nresult := NResult { nr_msg : option message; nr_err : option nerr }.

(* nontransparent/parser.go:16-25 machine.  emit (the listener) is represented by the list n_out of the results it was given. *)
Record nvars := NVars {
  n_typ : Z;               (* trailertyp *)
  n_trailer : byte;
  n_cand : bytes;          (* candidate *)
  n_best : bool;
  n_internal : machine;
  n_rderr : option rderr;  (* readError *)
  n_last : bytes;          (* lastChunk *)
  n_out : list nresult }.
Definition set_n_cand (v : bytes) (x : nvars) := NVars (n_typ x) (n_trailer x) v (n_best x) (n_internal x) (n_rderr x) (n_last x) (n_out x).
Definition set_n_internal (v : machine) (x : nvars) := NVars (n_typ x) (n_trailer x) (n_cand x) (n_best x) v (n_rderr x) (n_last x) (n_out x).
Definition set_n_err (l : bytes) (v : option rderr) (x : nvars) := NVars (n_typ x) (n_trailer x) (n_cand x) (n_best x) (n_internal x) v l (n_out x).
Definition set_n_out (v : list nresult) (x : nvars) := NVars (n_typ x) (n_trailer x) (n_cand x) (n_best x) (n_internal x) (n_rderr x) (n_last x) v.

(* nontransparent/parser.go:263-266: None: index out of range on an empty candidate *)
Definition strip1 (t : byte) (c : bytes) : option bytes :=
  match rev c with [] => None | b :: r => Some (if beqb b t then rev r else c) end.
(* m.internal.Parse(text) and m.emit, nontransparent/parser.go:267-271 and 186-193 (err replaces a nil error) *)
Definition parse_emit (text : bytes) (err : option rderr) (x : nvars) : option nvars :=
  match parse (n_internal x) text with
  | (m, Ret r e) => Some (set_n_out (n_out x ++ [NResult r (match e with Some e => Some (NMachine e) | None => option_map NRead err end)]) (set_n_internal m x))
  | _ => None
  end.
(* nontransparent/parser.go:262-272 process *)
Definition process (x : nvars) : option nvars :=
  match strip1 (n_trailer x) (n_cand x) with Some c => parse_emit c None (set_n_cand c x) | None => None end.

(* leaf statements; the Go text of each is in tools/ragel2coq.py *)
Inductive act := NProcess | NCandReset | NCandAppend.
Inductive cnd := CIsLF | CIsNUL | CHasCandidate.
Definition sem_act (a : act) (data : bytes) (p : Z) (x : nvars) : option nvars :=
  match a with
  | NProcess => process x                                       (* m.process() *)
  | NCandReset => Some (set_n_cand [] x)                        (* m.candidate = make([]byte, 0) *)
  | NCandAppend => Some (set_n_cand (n_cand x ++ data) x)       (* m.candidate = append(m.candidate, data...) *)
  end.
Definition sem_cnd (c : cnd) (x : nvars) : bool :=
  match c with
  | CIsLF => n_typ x =? 0                                       (* m.trailertyp == LF *)
  | CIsNUL => n_typ x =? 1                                      (* m.trailertyp == NUL *)
  | CHasCandidate => 0 <? Z.of_nat (length (n_cand x))          (* len(m.candidate) > 0 *)
  end.

Scheme Equality for act.
Scheme Equality for cnd.
Lemma act_eqb_ok a b : act_beq a b = true -> a = b.
Proof. destruct a; destruct b; cbn; congruence. Qed.
Lemma cnd_eqb_ok a b : cnd_beq a b = true -> a = b.
Proof. destruct a; destruct b; cbn; congruence. Qed.
