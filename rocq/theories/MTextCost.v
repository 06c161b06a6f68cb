(* rfc5424: what Parse copies.  The same program as M5424 with two counters (copy_results in ThmTextCost.v: forgetting them gives
   M5424.parse): the bytes of the input that the statements take as text, and the bytes that common.RemoveBytes moves. *)
From Verif Require Import Bytes GoMap GoTime Common GotoLang M5424Def A5424 M5424.
Local Open Scope Z_scope.

Definition size (l : bytes) : Z := Z.of_nat (length l).
(* common/functions.go:20-28 RemoveBytes (Common.remove_bytes): the loop moves the bytes after each position to the front by
   append; before the loop the data are copied *)
Fixpoint remove_moves (cp : bytes) (positions : list Z) (i offset : Z) : Z :=
  match positions with
  | [] => 0
  | pos :: r =>
      let at_ := pos - i - offset in
      if (0 <=? at_) && (at_ + 1 <=? Z.of_nat (length cp))
      then size (skipn (Z.to_nat (at_ + 1)) cp) + remove_moves (firstn (Z.to_nat at_) cp ++ skipn (Z.to_nat (at_ + 1)) cp) r (i + 1) offset
      else 0
  end.
Definition remove_cost (data : bytes) (positions : list Z) (offset : Z) : Z := size data + remove_moves data positions 0 offset.

(* rfc5424/machine.go: the bytes a statement takes from the input: string(m.text()), time.Parse and the conversions to int read
   the text; string(text) in the assignment of a parameter; data[m.msgat:p].  Every other statement takes none. *)
Definition taken (a : act) (p : Z) (x : vars) : Z :=
  match a with
  | ACurParam | APriority | AVersion | ATimeParse | AHostname | AAppname | AProcID | AMsgID | AIdLookup | AIdLocal | ATextLocal | AMessage => p - m_pb x
  | ASdSetParam => size (m_text x)
  | AMessagePartial => p - m_msgat x
  | APb | AMsgat | ABackReset | ABackAppend | ACurElem | AErrTime | AErr _ | APrioritySet | ATimestamp | ATimestampSet | ASdInit | ASdNewElem
  | AHasElements _ | ASdDelElem | ASdDelParam | ATextStrip => 0
  end.
Definition moved (a : act) (x : vars) : Z := match a with ATextStrip => remove_cost (m_text x) (m_backslashat x) (m_pb x) | _ => 0 end.
Definition Y : Type := (vars * (Z * Z))%type.
Definition w_act (a : act) (data : bytes) (p : Z) (y : Y) : option Y :=
  match sem_act a data p (fst y) with Some x' => Some (x', (fst (snd y) + taken a p (fst y), snd (snd y) + moved a (fst y))) | None => None end.
Definition w_cnd (c : cnd) (y : Y) : bool := sem_cnd c (fst y).
(* rfc5424/machine.go:110-12046 Parse *)
Definition w_parse (m : machine) (input : bytes) : outcome Y :=
  exec w_act w_cnd code5424 input (exec_fuel input) LEntry (G 0 1 0 (prepare (mv m), (0, 0))).
(* the two counters at the end of Parse; None: it does not end *)
Definition copies (m : machine) (input : bytes) : option (Z * Z) := match w_parse m input with Out _ (_, c) => Some c | _ => None end.

Example copies_ex : copies (new_machine false false) (lit "<1>1 - - - - - [a b=""x\""y\]""] m") = Some (20, 11).
Proof. vm_compute. reflexivity. Qed.
