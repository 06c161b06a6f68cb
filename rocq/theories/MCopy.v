(* The programs of SpecCopy.v in memory. *)
From Verif Require Import Bytes GoMap GoTime Common M5424Def M5424 BuilderBaseDef MBuilder Heap HBuilder HParse5424 SpecHeap SpecWorld MWorld SpecCopy.

Record cworld := CWorld { c_heap : heap; c_msgs : list addr; c_g : globals }.
Definition cworld0 (g : globals) : cworld := CWorld [] [] g.
Definition on_msg (s : cworld) (k : nat) (f : heap -> addr -> option (globals * heap)) : option cworld :=
  match nth_error (c_msgs s) k with
  | Some a => match f (c_heap s) a with Some (g', h') => Some (CWorld h' (c_msgs s) g') | None => None end
  | None => Some s end.
Definition c_op (s : cworld) (o : cop) : option cworld :=
  match o with
  | CNew => let (h', a) := h_new_message (c_heap s) in Some (CWorld h' (c_msgs s ++ [a]) (c_g s))
  | CParse best compliant b =>
      let (h1, a) := alloc (c_heap s) (KArr b) in
      match h_parse (h_new_machine best compliant) h1 (Slice a 0 (length b) (length b)) with
      | (_, h', HRet (Some a) _) => Some (CWorld h' (c_msgs s ++ [a]) (c_g s))
      | (_, h', HRet None _) => Some (CWorld h' (c_msgs s) (c_g s))
      | _ => None end
  | CCopy k =>
      match nth_error (c_msgs s) k with
      | Some a => match h_copy (c_heap s) a with Some (h', c) => Some (CWorld h' (c_msgs s ++ [c]) (c_g s)) | None => None end
      | None => Some s end
  | CSet k c => on_msg s k (fun h a => h_step (c_g s) h a c)
  | CCompute k v => on_msg s k (fun h a => h_with_g (c_g s) (h_compute_from_priority v h a))
  | CParam k id name v => on_msg s k (fun h a => h_with_g (c_g s) (h_write (WParam id name v) h a))
  | CDelElem k id => on_msg s k (fun h a => h_with_g (c_g s) (h_write (WDelElem id) h a))
  end.
Fixpoint c_ops (s : cworld) (l : list cop) : option cworld :=
  match l with [] => Some s | o :: r => match c_op s o with Some s' => c_ops s' r | None => None end end.
