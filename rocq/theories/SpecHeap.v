(* What a user sees through the pointers of a message. *)
From Verif Require Import Bytes GoMap GoTime Common M5424Def M5424 Heap.
From Verif Require M3164.

(* *p, for a pointer that may be nil; the outer None: the address does not hold a variable of the type *)
Definition deref {A} (h : heap) (f : cell -> option A) (p : option addr) : option (option A) :=
  match p with
  | None => Some None
  | Some a => match hget h a with Some c => match f c with Some v => Some (Some v) | None => None end | None => None end
  end.
Definition u8_in (c : cell) : option Z := match c with KU8 z => Some z | _ => None end.
Definition time_in (c : cell) : option time := match c with KTime t => Some t | _ => None end.
Definition str_in (c : cell) : option bytes := match c with KStr s => Some s | _ => None end.
(* the elements of a map[string]map[string]string *)
Fixpoint elems_in (h : heap) (m : gmap addr) : option sdmap :=
  match m with
  | [] => Some []
  | (k, q) :: r => match hget h q, elems_in h r with Some (KInner e), Some s => Some ((k, e) :: s) | _, _ => None end
  end.
Definition sd_in (h : heap) (c : cell) : option sdmap :=
  match c with
  | KRef (Some o) => match hget h o with Some (KOuter m) => elems_in h m | _ => None end
  | KRef None => Some []
  | _ => None end.
Definition bind {A B} (x : option A) (f : A -> option B) : option B := match x with Some a => f a | None => None end.
(* the message at address a, all pointers followed *)
Definition read5 (h : heap) (a : addr) : option message :=
  match hget h a with
  | Some (KMsg5 b v sd) =>
      bind (deref h u8_in (p_facility b)) (fun f => bind (deref h u8_in (p_severity b)) (fun s => bind (deref h u8_in (p_priority b)) (fun p =>
      bind (deref h time_in (p_timestamp b)) (fun t => bind (deref h str_in (p_hostname b)) (fun hn => bind (deref h str_in (p_appname b)) (fun an =>
      bind (deref h str_in (p_procID b)) (fun pi => bind (deref h str_in (p_msgID b)) (fun mi => bind (deref h str_in (p_message b)) (fun me =>
      bind (deref h (sd_in h) sd) (fun d => Some (Message f s p t hn an pi mi me v d)))))))))))
  | _ => None end.
(* MsgID is always nil: RFC 3164 has none *)
Definition read3 (h : heap) (a : addr) : option M3164.message :=
  match hget h a with
  | Some (KMsg3 b) =>
      bind (deref h u8_in (p_facility b)) (fun f => bind (deref h u8_in (p_severity b)) (fun s => bind (deref h u8_in (p_priority b)) (fun p =>
      bind (deref h time_in (p_timestamp b)) (fun t => bind (deref h str_in (p_hostname b)) (fun hn => bind (deref h str_in (p_appname b)) (fun an =>
      bind (deref h str_in (p_procID b)) (fun pi => bind (deref h str_in (p_message b)) (fun me =>
      match p_msgID b with None => Some (M3164.Message f s p t hn an pi me) | Some _ => None end))))))))
  | _ => None end.
(* the addresses a variable holds, and what can be reached from it *)
Definition opt_addr (p : option addr) : list addr := match p with Some a => [a] | None => [] end.
Definition base_addrs (b : base) : list addr :=
  opt_addr (p_facility b) ++ opt_addr (p_severity b) ++ opt_addr (p_priority b) ++ opt_addr (p_timestamp b) ++ opt_addr (p_hostname b) ++
  opt_addr (p_appname b) ++ opt_addr (p_procID b) ++ opt_addr (p_msgID b) ++ opt_addr (p_message b).
Definition targets (c : cell) : list addr :=
  match c with
  | KRef m => opt_addr m
  | KOuter m => map snd m
  | KMsg5 b _ sd => base_addrs b ++ opt_addr sd
  | KMsg3 b => base_addrs b
  | _ => [] end.
Inductive reach (h : heap) (a : addr) : addr -> Prop :=
| reach_self : reach h a a
| reach_next b c x : reach h a b -> hget h b = Some c -> In x (targets c) -> reach h a x.
