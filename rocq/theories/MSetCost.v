(* rfc5424/builder.go: what the setters copy.  The same program as MBuilder with two counters (set_results in ThmSetCost.v: forgetting
   them gives MBuilder.step): the bytes of the argument that are copied or taken as text, and the bytes common.RemoveBytes moves. *)
From Verif Require Import Bytes GoMap GoTime Common GotoLang M5424Def A5424 M5424 BuilderBaseDef GenBuilder ABuilder MBuilder.
From Verif Require MTextCost.
Local Open Scope Z_scope.

Notation size := MTextCost.size.
(* rfc5424/builder.go: the bytes a statement takes from the argument: string(data[pb:p]) and the conversion of the stripped text to a
   string (9226, 9246 elements[currentid][currentparamname] = string(text)); every other statement takes none *)
Definition taken (a : act) (p : Z) (x : bvars) : Z :=
  match a with
  | BTimeParse | BSLocal | BIdLocal | BSdNewParam | BTextLocal => p - b_pb x
  | BSdSetParam => size (b_text x)
  | BPb | BBackAppend | BTimestamp | BHostname | BAppname | BProcID | BMsgID | BMessage | BSdInit | BElements | BIdLookup | BSdNewElem | BTextStrip => 0
  end.
(* common/functions.go:20-28 RemoveBytes, called by set_sdpv: MTextCost.remove_cost *)
Definition moved (a : act) (x : bvars) : Z := match a with BTextStrip => MTextCost.remove_cost (b_text x) (b_back x) (b_pb x) | _ => 0 end.
Definition Y : Type := (bvars * (Z * Z))%type.
Definition w_act (a : act) (data : bytes) (p : Z) (y : Y) : option Y :=
  match sem_act a data p (fst y) with Some x' => Some (x', (fst (snd y) + taken a p (fst y), snd (snd y) + moved a (fst y))) | None => None end.
Definition w_cnd (c : cnd) (y : Y) : bool := sem_cnd c (fst y).
(* rfc5424/builder.go:67-9265 set; data := []byte(value) copies the argument; None: panic *)
Definition w_bset (from : entrypoint) (g : globals) (sm : message) (value : bytes) : option (message * (Z * Z)) :=
  match exec w_act w_cnd codeB value (exec_fuel value) LEntry
          (G 0 (translate from) 0 (BVars 0 [] sm (currentid g) (currentparamname g) None [] [] false [], (size value, 0))) with
  | Out _ (x, c) => Some (b_sm x, c)
  | _ => None
  end.
Definition plus (a b : Z * Z) : Z * Z := (fst a + fst b, snd a + snd b).
(* rfc5424/builder.go:9321-9344 SetParameter, as MBuilder.set_parameter *)
Definition w_set_parameter (g : globals) (sm : message) (id name v : bytes) : option (globals * message * (Z * Z)) :=
  match w_bset EpSdid g sm id with
  | None => None
  | Some (sm1, c1) =>
    match structuredData sm1 with
    | None => Some (g, sm1, c1)
    | Some m =>
      match mget m id with
      | None => Some (g, sm1, c1)
      | Some _ =>
        let g1 := Globals id (currentparamname g) in
        match w_bset EpSdpn g1 sm1 name with
        | None => None
        | Some (sm2, c2) =>
          match mget (match mget (sd_read (structuredData sm2)) id with Some e => e | None => [] end) name with
          | None => Some (g1, sm2, plus c1 c2)
          | Some _ =>
            let g2 := Globals id name in
            match w_bset EpSdpv g2 sm2 v with
            | None => None
            | Some (sm3, c3) => Some (g2, sm3, plus (plus c1 c2) c3)
            end
          end
        end
      end
    end
  end.
Definition w_with_g (g : globals) (r : option (message * (Z * Z))) : option (globals * message * (Z * Z)) :=
  match r with Some (m, c) => Some (g, m, c) | None => None end.
(* one call of the builder (rfc5424/builder.go:9266-9349), as MBuilder.step *)
Definition w_step (g : globals) (sm : message) (c : call) : option (globals * message * (Z * Z)) :=
  match c with
  | SetPriority v => Some (g, if valid_priority v then compute_from_priority v sm else sm, (0, 0))
  | SetVersion v => Some (g, if valid_version v then set_version v sm else sm, (0, 0))
  | SetTimestamp v => w_with_g g (w_bset EpTimestamp g sm v)
  | SetHostname v => w_with_g g (w_bset EpHostname g sm v)
  | SetAppname v => w_with_g g (w_bset EpAppname g sm v)
  | SetProcID v => w_with_g g (w_bset EpProcid g sm v)
  | SetMsgID v => w_with_g g (w_bset EpMsgid g sm v)
  | SetElementID v => w_with_g g (w_bset EpSdid g sm v)
  | SetParameter id name v => w_set_parameter g sm id name v
  | SetMessage v => w_with_g g (w_bset EpMsg g sm v)
  end.

Example w_step_ex : option_map snd (w_step (Globals [] []) empty_message (SetParameter (lit "a") (lit "b") (lit "x\]y\""z"))) = Some (23, 14).
Proof. vm_compute. reflexivity. Qed.
