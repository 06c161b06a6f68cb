(* The structured automaton of rfc3164/machine.go and the proof that the goto program (Gen3164.v) behaves like it,
   for every state and every byte. *)
From Coq Require Import FMapPositive.
From Verif Require A5424.
From Verif Require Import Bytes GoTime Common GotoLang M3164Def Gen3164.
Local Open Scope N_scope.
Notation btw := A5424.btw.
Notation is_dig := A5424.is_dig.
Notation is_graph := A5424.is_graph.

Inductive st :=
| S1 | S2 | S3 | S330 | S331 | S332       (* PRI *)
| S4 | STs (n : N) | S19                  (* Stamp timestamp; STs n: states 5..18, 281..299 *)
| SR (n : N) | S324                       (* RFC3339 timestamp: 300..323, 325..329 *)
| SHost (k : N)                           (* k bytes of HOSTNAME read *)
| S22                                     (* before the message *)
| S333                                    (* inside a message *)
| STag (k : N)                            (* k bytes of TAG read, 1..32 *)
| S366 | S367                             (* after TAG ":" and TAG ": " *)
| S368                                    (* after TAG "[" *)
| SCont (bad : bool) (k : N)              (* inside the content; k bytes of "]: " matched, bad: control character since *)
| SFail.

Definition num (s : st) : N :=
  match s with
  | S1 => 1 | S2 => 2 | S3 => 3 | S330 => 330 | S331 => 331 | S332 => 332
  | S4 => 4 | STs n => n | S19 => 19 | SR n => n | S324 => 324
  | SHost k => if k <? 2 then 20 + k else 25 + k
  | S22 => 22 | S333 => 333 | STag k => 333 + k | S366 => 366 | S367 => 367 | S368 => 368
  | SCont b k => if b then 23 + k else 369 + k
  | SFail => 373
  end.

(* control characters: not allowed in a message *)
Definition is_ctl (c : N) : bool := (c <=? 31) || (c =? 127).
Definition is_tagc (c : N) : bool := is_graph c && negb (c =? 58) && negb (c =? 91).

Notation tr := (tree act cnd st).
Fixpoint acts (l : list act) (t : tr) : tr := match l with [] => t | a :: r => TAct a (acts r t) end.
(* (m.p)--; goto st373: the fail state then rereads the same byte *)
Definition fail (b : byte) : tr := if (bN b =? 10) || (bN b =? 13) then TOut 0 else TNext SFail.
Definition efail : tr := TOut 373.
Definition errt (k : ekind) (f : tr) : tr := TAct (AErr k) f.
(* goto st0 *)
Definition dead : tr := TOut 0.

(* machine.go.rl:40-56 set_timestamp *)
Definition stamp_t (ok fl : tr) : tr :=
  let fin := TAct ATimestampYear (TIf CLoc (acts [ATimestampIn; ATimestampSet] ok) (TAct ATimestampSet ok)) in
  TAct ATimeStamp (TIf CTimeErr (TAct AErrTime fl) (TIf CTimezone (TAct ATimeInLoc fin) fin)).
(* machine.go.rl:58-66 set_rfc3339 *)
Definition rfc_t (ok fl : tr) : tr :=
  TAct ATimeRfc3339 (TIf CTimeErr (TAct AErrTime fl) (acts [ATimestamp; ATimestampSet] ok)).

(* the Stamp automaton *)
Definition st_next (n c : N) : option N :=
  let d lo hi t := if btw lo hi c then Some t else None in
  let l x t := if c =? x then Some t else None in
  match n with
  | 4 => if c =? 65 then Some 5 else if c =? 68 then Some 285 else if c =? 70 then Some 287 else if c =? 74 then Some 289
         else if c =? 77 then Some 292 else if c =? 78 then Some 294 else if c =? 79 then Some 296 else l 83 298
  | 5 => if c =? 112 then Some 6 else l 117 284
  | 6 => l 114 7 | 284 => l 103 7 | 285 => l 101 286 | 286 => l 99 7 | 287 => l 101 288 | 288 => l 98 7
  | 289 => if c =? 97 then Some 290 else l 117 291
  | 290 => l 110 7
  | 291 => if c =? 108 then Some 7 else l 110 7
  | 292 => l 97 293
  | 293 => if c =? 114 then Some 7 else l 121 7
  | 294 => l 111 295 | 295 => l 118 7 | 296 => l 99 297 | 297 => l 116 7 | 298 => l 101 299 | 299 => l 112 7
  | 7 => l 32 8
  | 8 => if c =? 32 then Some 9 else if c =? 51 then Some 283 else d 49 50 282
  | 9 => d 49 57 10 | 282 => d 48 57 10 | 283 => d 48 49 10
  | 10 => l 32 11
  | 11 => if c =? 50 then Some 281 else d 48 49 12
  | 12 => d 48 57 13 | 281 => d 48 51 13
  | 13 => l 58 14 | 14 => d 48 53 15 | 15 => d 48 57 16
  | 16 => l 58 17 | 17 => d 48 53 18 | 18 => d 48 57 19
  | _ => None
  end.
(* the RFC3339 automaton *)
Definition r3_next (n c : N) : option N :=
  let d lo hi t := if btw lo hi c then Some t else None in
  let l x t := if c =? x then Some t else None in
  match n with
  | 300 => d 48 57 301 | 301 => d 48 57 302 | 302 => d 48 57 303
  | 303 => l 45 304
  | 304 => if c =? 48 then Some 305 else l 49 329
  | 305 => d 49 57 306 | 329 => d 48 50 306
  | 306 => l 45 307
  | 307 => if c =? 48 then Some 308 else if c =? 51 then Some 328 else d 49 50 327
  | 308 => d 49 57 309 | 327 => d 48 57 309 | 328 => d 48 49 309
  | 309 => l 84 310
  | 310 => if c =? 50 then Some 326 else d 48 49 311
  | 311 => d 48 57 312 | 326 => d 48 51 312
  | 312 => l 58 313 | 313 => d 48 53 314 | 314 => d 48 57 315
  | 315 => l 58 316 | 316 => d 48 53 317 | 317 => d 48 57 318
  | 318 => if (c =? 43) || (c =? 45) then Some 319 else l 90 324
  | 319 => if c =? 50 then Some 325 else d 48 49 320
  | 320 => d 48 57 321 | 325 => d 48 51 321
  | 321 => l 58 322 | 322 => d 48 53 323 | 323 => d 48 57 324
  | _ => None
  end.
(* states from which a mismatch is reported *)
Definition r3_loud (n : N) : bool := btw 318 323 n || (n =? 325).
Definition r3_fail (n : N) (b : byte) : tr := if r3_loud n then errt ERFC3339 (fail b) else dead.
Definition to_ts (n : N) : st := if n =? 19 then S19 else STs n.
Definition to_r3 (n : N) : st := if n =? 324 then S324 else SR n.

Definition cont_t (b : byte) (bad : bool) (k : N) : tr :=
  let c := bN b in
  if c =? 93 then (if k =? 3 then acts [AContent; APb] (TNext (SCont false 1)) else TAct AContent (TNext (SCont bad 1)))
  else if is_ctl c then TNext (SCont true 0)
  else if k =? 3 then TAct APb (TNext (SCont false 0))
  else if (k =? 1) && (c =? 58) then TNext (SCont bad 2)
  else if (k =? 2) && (c =? 32) then TNext (SCont bad 3)
  else TNext (SCont bad 0).

Definition delta (s : st) (b : byte) : tr :=
  let c := bN b in
  let setpri := [APriority; APrioritySet] in
  match s with
  | S1 => if c =? 60 then TNext S2 else errt EPri (fail b)
  | S2 => if c =? 48 then TAct APb (TNext S3) else if c =? 49 then TAct APb (TNext S330)
          else if btw 50 57 c then TAct APb (TNext S331) else errt EPrival (fail b)
  | S3 => acts setpri (if c =? 62 then TNext S4 else errt EPrival (fail b))
  | S330 => acts setpri (if c =? 62 then TNext S4 else if btw 48 56 c then TNext S331 else if c =? 57 then TNext S332 else errt EPrival (fail b))
  | S331 => acts setpri (if c =? 62 then TNext S4 else if is_dig c then TNext S3 else errt EPrival (fail b))
  | S332 => acts setpri (if c =? 62 then TNext S4 else if btw 48 49 c then TNext S3 else errt EPrival (fail b))
  | S4 => if is_dig c then TIf CRfc3339 (TAct APb (TNext (SR 300))) (errt ETimestamp (fail b))
          else match st_next 4 c with Some n => TAct APb (TNext (to_ts n)) | None => errt ETimestamp (fail b) end
  | STs n => match st_next n c with Some m => TNext (to_ts m) | None => errt ETimestamp (fail b) end
  | S19 => if c =? 32 then stamp_t (TNext (SHost 0)) (fail b) else dead
  | SR n => match r3_next n c with Some m => TIf CRfc3339 (TNext (to_r3 m)) (r3_fail n b) | None => r3_fail n b end
  | S324 => if c =? 32 then rfc_t (TNext (SHost 0)) (fail b) else dead
  | SHost k => if (c =? 32) && (0 <? k) then TAct AHostname (TNext S22)
               else if is_graph c && (k <? 255) then (if k =? 0 then TAct APb (TNext (SHost 1)) else TNext (SHost (k + 1)))
               else errt EHostname (fail b)
  | S22 => if is_ctl c then errt ETag (fail b) else TAct APb (TNext (if is_tagc c then STag 1 else S333))
  | S333 => if is_ctl c then dead else TNext S333
  | STag k => if is_ctl c then dead
              else if c =? 58 then TAct ATag (TNext S366)
              else if c =? 91 then TAct ATag (TNext S368)
              else if is_tagc c && (k <? 32) then TNext (STag (k + 1))
              else TNext S333
  | S366 => if is_ctl c then dead else TNext (if c =? 32 then S367 else S333)
  | S367 => if is_ctl c then dead else TAct APb (TNext S333)
  | S368 => TAct APb (cont_t b false 0)
  | SCont bad k => cont_t b bad k
  | SFail => if (c =? 10) || (c =? 13) then TOut 0 else TNext SFail
  end.

Definition edelta (s : st) : tr :=
  match s with
  | S1 => errt EPri efail
  | S2 | S3 | S330 | S331 | S332 => errt EPrival efail
  | S4 | STs _ => errt ETimestamp efail
  | S19 | S324 => TOut (num s)
  | SR n => if r3_loud n then errt ERFC3339 efail else TOut n
  | SHost _ => errt EHostname efail
  | S22 => errt ETag efail
  | SCont true k => TOut (23 + k)
  | SFail => TOut 373
  | _ => TAct AMessage (TOut (num s))
  end.

Definition ok (s : st) : bool :=
  match s with
  | S1 => false    (* only the start state *)
  | STs n => btw 5 18 n || btw 281 299 n
  | SR n => btw 300 323 n || btw 325 329 n
  | SHost k => k <=? 255
  | STag k => btw 1 32 k
  | SCont _ k => k <=? 3
  | _ => true
  end.

Notation range := A5424.range.
Definition all_states : list st :=
  [S2; S3; S330; S331; S332; S4; S19; S324; S22; S333; S366; S367; S368; SFail]
  ++ map STs (range 5 14 ++ range 281 19) ++ map SR (range 300 24 ++ range 325 5) ++ map SHost (range 0 256) ++ map STag (range 1 32)
  ++ map (SCont true) (range 0 4) ++ map (SCont false) (range 0 4).
Lemma all_states_complete s : ok s = true -> In s all_states.
Proof.
  unfold all_states. intros H. repeat rewrite in_app_iff.
  destruct s as [| | | | | | |n| |n| |k| | |k| | | |bad k|]; try (left; cbn; tauto); try discriminate H;
    cbn [ok] in H; unfold A5424.btw in H; rewrite ?orb_true_iff, ?andb_true_iff, ?N.leb_le in H.
  - right; left. apply in_map, in_app_iff. destruct H; [left|right]; apply A5424.in_range; lia.
  - do 2 right; left. apply in_map, in_app_iff. destruct H; [left|right]; apply A5424.in_range; lia.
  - do 3 right; left. apply in_map, A5424.in_range. lia.
  - do 4 right; left. apply in_map, A5424.in_range. lia.
  - destruct bad; do 5 right; [left|right]; apply in_map, A5424.in_range; lia.
Qed.

(* the code *)
Definition code3164 := Eval vm_compute in link prog3164.

Notation ptab := (tab code3164).
Notation petab := (etab code3164).
Definition teq := tree_eqb act_eqb cnd_beq.

Definition check_state (s : st) : bool :=
  st_shapeb code3164 (num s)
  && forallb (fun b => teq (ptab (num s) b) (tmap num (delta s b)) && tok ok (delta s b)) all_bytes
  && teq (petab (num s)) (tmap num (edelta s)) && tok (fun _ => false) (edelta s).

Lemma check_all : forallb check_state all_states = true.
Proof. vm_compute. reflexivity. Qed.

Lemma teq_ok t u : teq t u = true -> t = u.
Proof. apply tree_eqb_ok; [apply act_eqb_ok|apply cnd_eqb_ok]. Qed.

Lemma sim3164 : sim_ok code3164 num ok delta edelta.
Proof.
  intros s Hs. pose proof check_all as H. eapply forallb_forall in H; [|apply all_states_complete; exact Hs].
  unfold check_state in H. apply andb_true_iff in H as [H H4]. apply andb_true_iff in H as [H H3].
  apply andb_true_iff in H as [H1 H2].
  split; [apply st_shapeb_ok; exact H1|]. split; [|split; [apply teq_ok; exact H3|exact H4]].
  intros b. pose proof (forall_bytes _ H2 b) as Hb. apply andb_true_iff in Hb as [Hb1 Hb2].
  split; [apply teq_ok; exact Hb1|exact Hb2].
Qed.

Definition check_entry : bool :=
  forallb (fun b => teq (pevl code3164 pev_fuel LEntry (Kn (KAt b) (Some 1) None)) (tmap num (delta S1 b)) && tok ok (delta S1 b)) all_bytes
  && teq (pevl code3164 pev_fuel LEntry (Kn KEnd (Some 1) None)) (tmap num (edelta S1)) && tok (fun _ => false) (edelta S1).
Lemma check_entry_ok : check_entry = true.
Proof. vm_compute. reflexivity. Qed.
Lemma entry3164 : entry_ok code3164 num ok delta edelta S1.
Proof.
  pose proof check_entry_ok as H. unfold check_entry in H.
  apply andb_true_iff in H as [H H3]. apply andb_true_iff in H as [H1 H2].
  split; [|split; [apply teq_ok; exact H2|exact H3]].
  intros b. pose proof (forall_bytes _ H1 b) as Hb. apply andb_true_iff in Hb as [Hb1 Hb2].
  split; [apply teq_ok; exact Hb1|exact Hb2].
Qed.

(* the machine as a function of the remaining input *)
Notation run3164 := (arun sem_act sem_cnd delta edelta).

Theorem exec_run3164 data x w :
  exec sem_act sem_cnd code3164 data (exec_fuel data) LEntry (G 0 1 w x) = run3164 data S1 0 data x.
Proof. apply (exec_arun sem_act sem_cnd code3164 num ok delta edelta sim3164 data S1 x w entry3164). Qed.
