(* Copying a message with c := *m.  For the setters, ComputeFromPriority and the maps, everything but the structured data is a value of its
   own; structured data present when the copy is made is one object, seen by both. *)
From Verif Require Import Bytes GoMap GoTime Common M5424Def M5424 BuilderBaseDef MBuilder SpecWorld.

Inductive cop :=
| CNew                                     (* m := &rfc5424.SyslogMessage{} *)
| CParse (best compliant : bool) (b : bytes) (* m, err := rfc5424.NewMachine(...).Parse([]byte(b)), kept when m is not nil *)
| CCopy (k : nat)                          (* c := *m; &c is a new message *)
| CSet (k : nat) (c : call)
| CCompute (k : nat) (v : Z)
| CParam (k : nat) (id name v : bytes)     (* if the element exists: ( *m.StructuredData)[id][name] = v *)
| CDelElem (k : nat) (id : bytes).         (* if m.StructuredData != nil { delete( *m.StructuredData, id) } *)

(* a message: its own fields (structuredData of the record is not used) and which structured data it has, if any *)
Record pool := Pool { heads : list (message * option nat); groups : list sdmap; p_g : globals }.
Definition pool0 (g : globals) : pool := Pool [] [] g.
Definition view (gs : list sdmap) (x : message * option nat) : message :=
  set_structuredData (match snd x with Some i => nth_error gs i | None => None end) (fst x).
(* message k, whose structured data is og, becomes m *)
Definition update (p : pool) (k : nat) (og : option nat) (m : message) (g : globals) : pool :=
  match og, structuredData m with
  | Some i, Some s => Pool (replace (heads p) k (m, og)) (replace (groups p) i s) g
  | None, Some s => Pool (replace (heads p) k (m, Some (length (groups p)))) (groups p ++ [s]) g    (* new structured data, of this message alone *)
  | _, None => Pool (replace (heads p) k (m, og)) (groups p) g
  end.
Definition add_new (p : pool) (m : message) : pool :=
  match structuredData m with
  | Some s => Pool (heads p ++ [(m, Some (length (groups p)))]) (groups p ++ [s]) (p_g p)
  | None => Pool (heads p ++ [(m, None)]) (groups p) (p_g p)
  end.
Definition c_value (p : pool) (o : cop) : option pool :=
  match o with
  | CNew => Some (add_new p empty_message)
  | CParse best compliant b =>
      match snd (parse (new_machine best compliant) b) with
      | Ret (Some m) _ => Some (add_new p m)
      | Ret None _ => Some p
      | _ => None end
  | CCopy k => match nth_error (heads p) k with Some x => Some (Pool (heads p ++ [x]) (groups p) (p_g p)) | None => Some p end
  | CSet k c =>
      match nth_error (heads p) k with
      | Some x => match step (p_g p) (view (groups p) x) c with Some (g', m') => Some (update p k (snd x) m' g') | None => None end
      | None => Some p end
  | CCompute k v => match nth_error (heads p) k with Some x => Some (update p k (snd x) (compute_from_priority v (view (groups p) x)) (p_g p)) | None => Some p end
  | CParam k id name v => match nth_error (heads p) k with Some x => Some (update p k (snd x) (write_value (WParam id name v) (view (groups p) x)) (p_g p)) | None => Some p end
  | CDelElem k id => match nth_error (heads p) k with Some x => Some (update p k (snd x) (write_value (WDelElem id) (view (groups p) x)) (p_g p)) | None => Some p end
  end.
Fixpoint c_values (p : pool) (l : list cop) : option pool :=
  match l with [] => Some p | o :: r => match c_value p o with Some p' => c_values p' r | None => None end end.
