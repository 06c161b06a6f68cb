(* L3: rfc5424 parsing as functions on byte lists, without automaton, mark or index bookkeeping.
   Positions are the column numbers reported in errors. *)
From Verif Require Import Bytes GoMap GoTime Common GotoLang M5424Def A5424.
Local Open Scope Z_scope.

(* PGood: accepted; PBad: rejected with the partial message (None: not minimally valid) and the error *)
Inductive pres := PGood (o : msg5424) | PBad (o : option msg5424) (e : perr).

Definition len (l : bytes) : Z := Z.of_nat (length l).
Definition is (c : N) (b : byte) : bool := N.eqb (bN b) c.

(* longest prefix of at most max bytes satisfying P *)
Fixpoint span_max (P : N -> bool) (max : nat) (l : bytes) : bytes * bytes :=
  match max, l with
  | S m, b :: r => if P (bN b) then (b :: fst (span_max P m r), snd (span_max P m r)) else ([], l)
  | _, _ => ([], l)
  end.

Definition stage := msg5424 -> Z -> bytes -> pres.

(* ---- MSG ---- *)
(* scan UTF-8 from tail state u (None: between characters): Some n = ill-formed, n bytes consumed before the offending byte *)
Fixpoint utf_scan (u : option N) (l : bytes) : option nat :=
  match l with
  | [] => match u with None => None | Some _ => Some 0%nat end
  | b :: r =>
      let next := match u with
        | None => if (bN b <? 128)%N then Some None else match utf_start (bN b) with Some i => Some (Some i) | None => None end
        | Some i => utf_tail i (bN b) end in
      match next with
      | None => Some 0%nat
      | Some u' => match utf_scan u' r with Some n => Some (S n) | None => None end
      end
  end.

Definition bom : bytes := ["239"; "187"; "191"]%byte.
Definition strip_bom (l : bytes) : option bytes :=
  match l with
  | a :: b :: c :: r => if is 239 a && is 187 b && is 191 c then Some r else None
  | _ => None
  end.

Definition p_msg (cm : bool) : stage := fun o p rest =>
  match rest with
  | [] => PGood o
  | _ =>
    if cm then
      match strip_bom rest with
      | Some r => match utf_scan None r with
                  | None => PGood (set_o_message rest o)
                  | Some n => PBad (Some (set_o_message (firstn (3 + n) rest) o)) (PErr EMsgNotCompliant (p + 3 + Z.of_nat n))
                  end
      | None => PGood (set_o_message rest o)
      end
    else PGood (set_o_message rest o)
  end.

(* ---- STRUCTURED-DATA ---- *)
Inductive vmode := VPlain | VEsc | VUtf (i : N).
Inductive vend := VClose (r : bytes) | VBad (k : ekind).
(* PARAM-VALUE up to the closing quote: the raw text and how it ends *)
Fixpoint p_val (m : vmode) (l : bytes) : bytes * vend :=
  match l with
  | [] => ([], VBad (match m with VUtf _ => ESdParam | _ => EEscape end))
  | b :: r =>
    let go m' := let res := p_val m' r in (b :: fst res, snd res) in
    match m with
    | VPlain =>
        if is 34 b then ([], VClose r)
        else if is 92 b then go VEsc
        else if is 93 b then ([], VBad EEscape)
        else if (bN b <? 128)%N then go VPlain
        else match utf_start (bN b) with Some i => go (VUtf i) | None => ([], VBad EEscape) end
    | VEsc => if is 34 b || is 92 b || is 93 b then go VPlain else ([], VBad EEscape)
    | VUtf i => match utf_tail i (bN b) with
                | Some None => go VPlain | Some (Some j) => go (VUtf j) | None => ([], VBad ESdParam) end
    end
  end.

(* removing the escaping backslashes *)
Fixpoint unesc (l : bytes) : bytes :=
  match l with
  | [] => []
  | b :: r => if is 92 b then match r with [] => [] | c :: r' => c :: unesc r' end else b :: unesc r
  end.

Definition sd_of (o : msg5424) : sdmap := sd_read (o_sd o).
Definition add_elem (id : bytes) (o : msg5424) : msg5424 := set_o_hasElements true (set_o_sd (Some (mset (sd_of o) id [])) o).
Definition del_elem (cur : option bytes) (o : msg5424) : msg5424 :=
  match cur with
  | None => o
  | Some id => let m := mdel (sd_of o) id in
      set_o_hasElements (match m with [] => false | _ => true end) (set_o_sd (Some m) o)
  end.
Definition elem_of (o : msg5424) (id : bytes) : gmap bytes := match mget (sd_of o) id with Some e => e | None => [] end.
Definition put_param (id nm v : bytes) (o : msg5424) : msg5424 :=
  set_o_sd (Some (mset (sd_of o) id (mset (elem_of o id) nm v))) o.
Definition del_param (id : bytes) (cp : option bytes) (o : msg5424) : msg5424 :=
  match cp with None => o | Some nm => set_o_sd (Some (mset (sd_of o) id (mdel (elem_of o id) nm))) o end.

Inductive sdmode := MElem (cur : option bytes)              (* after '[': cur is the previous SD-ID *)
  | MParam (id : bytes) (cp : option bytes).                  (* after ' ': cp is the previous PARAM-NAME of this element *)

Fixpoint p_elems (fuel : nat) (cm : bool) (m : sdmode) (o : msg5424) (p : Z) (rest : bytes) : pres :=
  match fuel with
  | O => PBad None (PErr EParse p)   (* not reached when fuel > length rest *)
  | S fuel =>
    let close id o p r :=            (* after ']' *)
      match r with
      | [] => PGood o
      | b :: r' => if is 32 b then p_msg cm o (p + 1) r'
                   else if is 91 b then p_elems fuel cm (MElem (Some id)) o (p + 1) r'
                   else PBad (Some o) (PErr EStructuredData p)
      end in
    match m with
    | MElem cur =>
      let '(id, r) := span_max is_sdc 32 rest in
      let p' := p + len id in
      match id with
      | [] => PBad (Some (del_elem cur o)) (PErr ESdID p)
      | _ =>
        match mget (sd_of o) id with
        | Some _ => PBad (Some o) (PErr ESdIDDuplicated p')
        | None =>
          match r with
          | b :: r' => if is 32 b then p_elems fuel cm (MParam id None) (add_elem id o) (p' + 1) r'
                       else if is 93 b then close id (add_elem id o) (p' + 1) r'
                       else PBad (Some o) (PErr ESdID p')
          | [] => PBad (Some o) (PErr ESdID p')
          end
        end
      end
    | MParam id cp =>
      let '(nm, r) := span_max is_sdc 32 rest in
      let p1 := p + len nm in
      match nm, r with
      | _ :: _, e :: r1 =>
        if is 61 e then
          match r1 with
          | q :: r2 =>
            if is 34 q then
              let '(raw, e) := p_val VPlain r2 in
              let p2 := p1 + 2 + len raw in
              match e with
              | VClose r3 =>
                  let o' := put_param id nm (unesc raw) o in
                  match r3 with
                  | b :: r4 => if is 32 b then p_elems fuel cm (MParam id (Some nm)) o' (p2 + 2) r4
                               else if is 93 b then close id o' (p2 + 2) r4
                               else PBad (Some (del_param id (Some nm) o')) (PErr ESdParam (p2 + 1))
                  | [] => PBad (Some (del_param id (Some nm) o')) (PErr ESdParam (p2 + 1))
                  end
              | VBad EEscape => PBad (Some o) (PErr EEscape p2)
              | VBad _ => PBad (Some (del_param id (Some nm) o)) (PErr ESdParam p2)
              end
            else PBad (Some (del_param id (Some nm) o)) (PErr ESdParam (p1 + 1))
          | [] => PBad (Some (del_param id (Some nm) o)) (PErr ESdParam (p1 + 1))
          end
        else PBad (Some (del_param id cp o)) (PErr ESdParam p1)
      | _, _ => PBad (Some (del_param id cp o)) (PErr ESdParam p1)
      end
    end
  end.

Definition p_sd (cm : bool) : stage := fun o p rest =>
  match rest with
  | b :: r =>
      if is 45 b then
        match r with
        | [] => PGood o
        | c :: r' => if is 32 c then p_msg cm o (p + 2) r' else PBad (Some o) (PErr EParse (p + 1))
        end
      else if is 91 b then p_elems (S (length r)) cm (MElem None) (set_o_sd (Some []) o) (p + 1) r
      else PBad (Some o) (PErr EStructuredData p)
  | [] => PBad (Some o) (PErr EStructuredData p)
  end.

(* ---- HOSTNAME, APP-NAME, PROCID, MSGID ---- *)
Definition set_word (f : fld) (w : bytes) (o : msg5424) : msg5424 :=
  match f with FHost => set_o_hostname w o | FApp => set_o_appname w o | FProc => set_o_procID w o | FMsgid => set_o_msgID w o end.
Definition p_word (f : fld) (k : stage) : stage := fun o p rest =>
  let '(w, r) := span_max is_graph (N.to_nat (fmax f)) rest in
  match w, r with
  | _ :: _, b :: r' => if is 32 b then k (set_word f w o) (p + len w + 1) r' else PBad (Some o) (PErr (ferr f) (p + len w))
  | _, _ => PBad (Some o) (PErr (ferr f) (p + len w))
  end.

(* ---- TIMESTAMP ---- *)
Inductive tsend := TSDone (r : bytes) | TSBad.
Fixpoint ts_scan (n : N) (l : bytes) : bytes * tsend :=
  match l with
  | [] => ([], TSBad)
  | b :: r => match ts_next n (bN b) with
              | None => ([], TSBad)
              | Some m => if (m =? 578)%N then ([b], TSDone r) else (b :: fst (ts_scan m r), snd (ts_scan m r))
              end
  end.
Definition set_ts (t : time) (o : msg5424) : msg5424 := set_o_timestampSet true (set_o_timestamp t o).
Definition p_ts (k : stage) : stage := fun o p rest =>
  match rest with
  | b :: r =>
      if is 45 b then
        match r with
        | c :: r' => if is 32 c then k o (p + 2) r' else PBad (Some o) (PErr EParse (p + 1))
        | [] => PBad (Some o) (PErr EParse (p + 1))
        end
      else if is_dig (bN b) then
        let '(w, e) := ts_scan 554 r in
        let text := b :: w in
        let p' := p + len text in
        match e with
        | TSBad => PBad (Some o) (PErr ETimestamp p')
        | TSDone r' =>
            match parse_rfc3339 text with
            | None => PBad (Some o) (PTime text p')
            | Some t => match r' with
                        | c :: r2 => if is 32 c then k (set_ts t o) (p' + 1) r2 else PBad (Some (set_ts t o)) (PErr EParse p')
                        | [] => PBad (Some (set_ts t o)) (PErr EParse p')
                        end
            end
        end
      else PBad (Some o) (PErr ETimestamp p)
  | [] => PBad (Some o) (PErr ETimestamp p)
  end.

(* ---- PRI VERSION ---- *)
Definition dv (b : byte) : Z := Z.of_N (bN b) - 48.
Definition set_ver (v : Z) (o : msg5424) : msg5424 := set_o_version v o.
Definition p_version (k : stage) : stage := fun o p rest =>
  match rest with
  | d1 :: r1 =>
    if btw 49 57 (bN d1) then
      let o1 := set_ver (dv d1) o in
      match r1 with
      | [] => PBad (Some o1) (PErr EParse (p + 1))
      | d2 :: r2 =>
        if is 32 d2 then k o1 (p + 2) r2
        else if is_dig (bN d2) then
          let o2 := set_ver (10 * dv d1 + dv d2) o in
          match r2 with
          | [] => PBad (Some o1) (PErr EVersion (p + 2))
          | d3 :: r3 =>
            if is 32 d3 then k o2 (p + 3) r3
            else if is_dig (bN d3) then
              let o3 := set_ver (100 * dv d1 + 10 * dv d2 + dv d3) o in
              match r3 with
              | [] => PBad (Some o2) (PErr EVersion (p + 3))
              | c :: r4 => if is 32 c then k o3 (p + 4) r4 else PBad (Some o3) (PErr EVersion (p + 3))
              end
            else PBad (Some o2) (PErr EVersion (p + 2))
          end
        else PBad (Some o1) (PErr EParse (p + 1))
      end
    else PBad None (PErr EVersion p)
  | [] => PBad None (PErr EVersion p)
  end.

Definition pri_msg (v : Z) : msg5424 := set_o_prioritySet true (set_o_priority v msg_zero).
(* the longest PRIVAL (0..191 without leading zeros) and the rest *)
Definition prival (l : bytes) : option (Z * Z * bytes) :=   (* value, number of digits, rest *)
  match l with
  | d1 :: r1 =>
    if is 48 d1 then Some (0, 1, r1)
    else if btw 49 57 (bN d1) then
      match r1 with
      | d2 :: r2 =>
        if is_dig (bN d2) then
          match r2 with
          | d3 :: r3 => if is_dig (bN d3) && (100 * dv d1 + 10 * dv d2 + dv d3 <=? 191)
                        then Some (100 * dv d1 + 10 * dv d2 + dv d3, 3, r3) else Some (10 * dv d1 + dv d2, 2, r2)
          | [] => Some (10 * dv d1 + dv d2, 2, r2)
          end
        else Some (dv d1, 1, r1)
      | [] => Some (dv d1, 1, r1)
      end
    else None
  | [] => None
  end.
Definition p_pri (k : stage) (data : bytes) : pres :=
  match data with
  | b :: r =>
    if is 60 b then
      match prival r with
      | None => PBad None (PErr EPrival 1)
      | Some (v, n, r') =>
          match r' with
          | c :: r2 => if is 62 c then k (pri_msg v) (n + 2) r2 else PBad None (PErr EPrival (n + 1))
          | [] => PBad None (PErr EPrival (n + 1))
          end
      end
    else PBad None (PErr EPri 0)
  | [] => PBad None (PErr EPri 0)
  end.

Definition p_header (cm : bool) : stage :=
  p_version (p_ts (p_word FHost (p_word FApp (p_word FProc (p_word FMsgid (p_sd cm)))))).
Definition spec5424 (cm : bool) (data : bytes) : pres := p_pri (p_header cm) data.
