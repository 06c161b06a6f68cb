(* The same program in memory. *)
From Verif Require Import Bytes GoMap GoTime Common M5424Def M5424 BuilderBaseDef MBuilder Heap HBuilder HParse5424 SpecHeap SpecWorld.

Record world := World { w_heap : heap; w_mach : list hmachine; w_buf : list slice; w_msgs : list addr; w_g : globals; w_trace : list (bool * option perr) }.
Definition world0 (g : globals) : world := World [] [] [] [] g [].
(* if p != nil { *p = c } *)
Definition poke (h : heap) (p : option addr) (c : cell) : heap := match p with Some a => hput h a c | None => h end.
Definition h_write (u : write) (h : heap) (a : addr) : option heap :=
  match hget h a with
  | Some (KMsg5 b v sd) =>
    match u with
    | WFacility z => Some (poke h (p_facility b) (KU8 z))
    | WSeverity z => Some (poke h (p_severity b) (KU8 z))
    | WPriority z => Some (poke h (p_priority b) (KU8 z))
    | WTimestamp t => Some (poke h (p_timestamp b) (KTime t))
    | WHostname s => Some (poke h (p_hostname b) (KStr s))
    | WAppname s => Some (poke h (p_appname b) (KStr s))
    | WProcID s => Some (poke h (p_procID b) (KStr s))
    | WMsgID s => Some (poke h (p_msgID b) (KStr s))
    | WMessage s => Some (poke h (p_message b) (KStr s))
    | WParam id name s =>
        match sd with
        | Some r => match hget h r with
                    | Some (KRef el) => match h_elem h el id with Some _ => h_put_param h el id name s | None => Some h end
                    | _ => None end
        | None => Some h end
    | WDelElem id =>
        match sd with
        | Some r => match hget h r with
                    | Some (KRef (Some q)) => match hget h q with Some (KOuter m) => Some (hput h q (KOuter (mdel m id))) | _ => None end
                    | Some (KRef None) => Some h
                    | _ => None end
        | None => Some h end
    end
  | _ => None end.
Definition w_op (s : world) (o : op) : option world :=
  let '(World h ma bu ms g tr) := s in
  match o with
  | ONewMachine best compliant => Some (World h (ma ++ [h_new_machine best compliant]) bu ms g tr)
  | ONewBuf b => let (h', a) := alloc h (KArr b) in Some (World h' ma (bu ++ [Slice a 0 (length b) (length b)]) ms g tr)
  | OWriteBuf k i x =>
      match nth_error bu k with
      | Some d =>
          if (i <? s_len d)%nat then
            match hget h (s_arr d) with
            | Some (KArr b) => Some (World (hput h (s_arr d) (KArr (replace b (s_off d + i) x))) ma bu ms g tr)
            | _ => None end
          else Some s
      | None => Some s end
  | OParse k b i j =>
      match nth_error ma k, nth_error bu b with
      | Some m, Some buf =>
          match subslice buf i j with
          | Some d =>
              match h_parse m h d with
              | (m', h', HRet (Some a) e) => Some (World h' (replace ma k m') bu (ms ++ [a]) g (tr ++ [(true, e)]))
              | (m', h', HRet None e) => Some (World h' (replace ma k m') bu ms g (tr ++ [(false, e)]))
              | _ => None end
          | None => Some s end
      | _, _ => Some s end
  | ONewMsg => let (h', a) := h_new_message h in Some (World h' ma bu (ms ++ [a]) g tr)
  | OSet k c =>
      match nth_error ms k with
      | Some a => match h_step g h a c with Some (g', h') => Some (World h' ma bu ms g' tr) | None => None end
      | None => Some s end
  | OCompute k v =>
      match nth_error ms k with
      | Some a => match h_compute_from_priority v h a with Some h' => Some (World h' ma bu ms g tr) | None => None end
      | None => Some s end
  | OWrite k u =>
      match nth_error ms k with
      | Some a => match h_write u h a with Some h' => Some (World h' ma bu ms g tr) | None => None end
      | None => Some s end
  end.
Fixpoint w_ops (s : world) (l : list op) : option world :=
  match l with [] => Some s | o :: r => match w_op s o with Some s' => w_ops s' r | None => None end end.
