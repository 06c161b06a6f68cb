(* rfc5424/builder.go: the setters, SetParameter with its package variables, Valid and String. *)
From Coq Require Import Permutation.
From Verif Require Import Bytes GoMap GoTime Common GotoLang M5424Def A5424 M5424 BuilderBaseDef GenBuilder ABuilder.
Local Open Scope Z_scope.

(* rfc5424/builder.go:25-37 entrypoint *)
Inductive entrypoint := EpTimestamp | EpHostname | EpAppname | EpProcid | EpMsgid | EpSdid | EpSdpn | EpSdpv | EpMsg.
(* rfc5424/builder.go:13-23, 39-62 translate *)
Definition translate (e : entrypoint) : N :=
  match e with
  | EpTimestamp => 1 | EpHostname => 38 | EpAppname => 39 | EpProcid => 40 | EpMsgid => 41
  | EpSdid => 42 | EpSdpn => 43 | EpSdpv => 582 | EpMsg => 52 end.

(* rfc5424/builder.go:64-65 the package variables *)
Record globals := Globals { currentid : bytes; currentparamname : bytes }.

(* rfc5424/builder.go:67-9265 set; None: panic *)
Definition bset (from : entrypoint) (g : globals) (sm : message) (value : bytes) : option message :=
  match exec sem_act sem_cnd codeB value (exec_fuel value) LEntry
          (G 0 (translate from) 0 (BVars 0 [] sm (currentid g) (currentparamname g) None [] [] false [])) with
  | Out _ x => Some (b_sm x)
  | _ => None
  end.

(* syslog.go:91-97 ComputeFromPriority *)
Definition compute_from_priority (v : Z) (m : message) : message :=
  set_facility (Some (v / 8)) (set_severity (Some (v mod 8)) (set_priority (Some v) m)).

(* rfc5424/builder.go:9266-9349: the calls of the Builder interface.  The arguments of SetPriority (uint8) and SetVersion
   (uint16) are integers here: theorems assume their ranges where needed. *)
Inductive call := SetPriority (v : Z) | SetVersion (v : Z) | SetTimestamp (v : bytes) | SetHostname (v : bytes) | SetAppname (v : bytes)
  | SetProcID (v : bytes) | SetMsgID (v : bytes) | SetElementID (v : bytes) | SetParameter (id name v : bytes) | SetMessage (v : bytes).

(* rfc5424/builder.go:9321-9344 SetParameter.  "elements" is a reference to the map of sm, so it is read again after each set. *)
Definition set_parameter (g : globals) (sm : message) (id name v : bytes) : option (globals * message) :=
  match bset EpSdid g sm id with
  | None => None
  | Some sm1 =>
    match structuredData sm1 with
    | None => Some (g, sm1)
    | Some m =>
      match mget m id with
      | None => Some (g, sm1)
      | Some _ =>
        let g1 := Globals id (currentparamname g) in
        match bset EpSdpn g1 sm1 name with
        | None => None
        | Some sm2 =>
          match mget (match mget (sd_read (structuredData sm2)) id with Some e => e | None => [] end) name with
          | None => Some (g1, sm2)
          | Some _ =>
            let g2 := Globals id name in
            match bset EpSdpv g2 sm2 v with
            | None => None
            | Some sm3 => Some (g2, sm3)
            end
          end
        end
      end
    end
  end.

Definition with_g (g : globals) (r : option message) : option (globals * message) :=
  match r with Some m => Some (g, m) | None => None end.

(* one call of the builder, executed without interleaving; None: panic *)
Definition step (g : globals) (sm : message) (c : call) : option (globals * message) :=
  match c with
  | SetPriority v => Some (g, if valid_priority v then compute_from_priority v sm else sm)
  | SetVersion v => Some (g, if valid_version v then set_version v sm else sm)
  | SetTimestamp v => with_g g (bset EpTimestamp g sm v)
  | SetHostname v => with_g g (bset EpHostname g sm v)
  | SetAppname v => with_g g (bset EpAppname g sm v)
  | SetProcID v => with_g g (bset EpProcid g sm v)
  | SetMsgID v => with_g g (bset EpMsgid g sm v)
  | SetElementID v => with_g g (bset EpSdid g sm v)
  | SetParameter id name v => set_parameter g sm id name v
  | SetMessage v => with_g g (bset EpMsg g sm v)
  end.

Fixpoint steps (g : globals) (sm : message) (cs : list call) : option (globals * message) :=
  match cs with
  | [] => Some (g, sm)
  | c :: r => match step g sm c with Some (g', sm') => steps g' sm' r | None => None end
  end.

(* &SyslogMessage{} *)
Definition empty_message : message := Message None None None None None None None None None 0 None.

(* rfc5424/syslog_message.go:88-91 Valid and syslog.go:83-86 Base.Valid *)
Definition msg_valid (m : message) : bool :=
  match priority m with Some p => valid_priority p | None => false end && valid_version (version m).

(* ---------- String ---------- *)
(* %d of a non-negative integer *)
Fixpoint to_dec_loop (fuel : nat) (z : Z) (acc : bytes) : bytes :=
  match fuel with
  | O => acc
  | S f => let acc' := digit_byte (z mod 10) :: acc in if z <? 10 then acc' else to_dec_loop f (z / 10) acc'
  end.
Definition to_dec (z : Z) : bytes := to_dec_loop 20 z [].

(* the number of continuation bytes of the rune starting with b, as "range" decodes it: a malformed sequence is one
   byte wide.  (Go's unicode/utf8 tables; A5424.utf_start and utf_tail are the RFC 3629 table.) *)
Fixpoint tail_len (i : N) (l : bytes) : nat :=
  match l with
  | [] => 0
  | b :: r => match utf_tail i (bN b) with
              | None => 0
              | Some None => 1
              | Some (Some j) => match tail_len j r with O => 0 | S n => S (S n) end
              end
  end.
Definition rune_rest (b : byte) (r : bytes) : nat := match utf_start (bN b) with Some i => tail_len i r | None => 0 end.

(* string(value[i]): the UTF-8 encoding of the code point equal to that byte *)
Definition string_of_byte (b : byte) : bytes :=
  if (bN b <? 128)%N then [b]
  else match Byte.of_N (192 + bN b / 64), Byte.of_N (128 + bN b mod 64) with Some x, Some y => [x; y] | _, _ => [] end.

(* common/functions.go:31-42 EscapeBytes; skip: continuation bytes of the current rune *)
Fixpoint escape_loop (skip : nat) (l : bytes) : bytes :=
  match l with
  | [] => []
  | b :: r =>
    match skip with
    | S k => escape_loop k r
    | O => (if ((bN b =? 92) || (bN b =? 93) || (bN b =? 34))%N then ["\"%byte] else []) ++ string_of_byte b ++ escape_loop (rune_rest b r) r
    end
  end.
Definition escape_bytes (v : bytes) : bytes := escape_loop 0 v.

(* sort.Strings, as insertion sort *)
Fixpoint ins (k : bytes) (l : list bytes) : list bytes :=
  match l with
  | [] => [k]
  | h :: r => match bcmp k h with Gt => h :: ins k r | _ => k :: h :: r end
  end.
Definition sort_strings (l : list bytes) : list bytes := fold_right ins [] l.

(* the order in which "range" visits the keys of a map: any permutation; None is the range over the elements,
   Some id the range over the parameters of id *)
Definition order := option bytes -> list bytes -> list bytes.
Definition is_order (it : order) : Prop := forall w l, Permutation l (it w l).

(* rfc5424/builder.go:9378-9407: the loop over the parameters, then over the elements *)
Definition params_string (it : order) (id : bytes) (e : gmap bytes) : bytes :=
  concat (map (fun n => lit " " ++ n ++ lit "=""" ++ escape_bytes (match mget e n with Some v => v | None => [] end) ++ lit """")
     (sort_strings (it (Some id) (map fst e)))).
Definition sd_string (it : order) (m : sdmap) : bytes :=
  concat (map (fun id => lit "[" ++ id ++ params_string it id (match mget m id with Some e => e | None => [] end) ++ lit "]")
     (sort_strings (it None (map fst m)))).

Definition or_dash (o : option bytes) : bytes := match o with Some s => s | None => lit "-" end.

(* rfc5424/builder.go:9351-9411 String; None: the error "invalid syslog" *)
Definition to_string (it : order) (m : message) : option bytes :=
  if msg_valid m then
    Some (lit "<" ++ to_dec (match priority m with Some p => p | None => 0 end) ++ lit ">" ++ to_dec (version m) ++ lit " "
      ++ or_dash (match timestamp m with Some t => Some (format_micro t) | None => None end) ++ lit " "
      ++ or_dash (hostname m) ++ lit " " ++ or_dash (appname m) ++ lit " " ++ or_dash (procID m) ++ lit " " ++ or_dash (msgID m) ++ lit " "
      ++ match structuredData m with Some sd => sd_string it sd | None => lit "-" end
      ++ match msg m with Some s => lit " " ++ s | None => [] end)
  else None.

Definition any_order : order := fun _ l => l.
Example build_ex : match steps (Globals [] []) empty_message
    [SetPriority 191; SetVersion 1; SetHostname (lit "h-1"); SetParameter (lit "b") (lit "k") (lit "v\]"); SetElementID (lit "a"); SetMessage (lit "m")] with
  | Some (_, m) => to_string any_order m | None => None end
  = Some (lit "<191>1 - h-1 - - - [a][b k=""v\]""] m").
Proof. vm_compute. reflexivity. Qed.
