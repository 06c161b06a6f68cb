(* L2: the structured automaton of rfc5424/machine.go and the proof that the goto program (Gen5424.v)
   behaves like it, for every state and every byte. *)
From Coq Require Import FMapPositive.
From Verif Require Import Bytes GoMap GoTime Common GotoLang M5424Def Gen5424.
Local Open Scope N_scope.

(* the four header words *)
Inductive fld := FHost | FApp | FProc | FMsgid.
Definition fmax (f : fld) : N := match f with FHost => 255 | FApp => 48 | FProc => 128 | FMsgid => 32 end.
Definition ferr (f : fld) : ekind := match f with FHost => EHostname | FApp => EAppname | FProc => EProcID | FMsgid => EMsgID end.
Definition fact (f : fld) : act := match f with FHost => AHostname | FApp => AAppname | FProc => AProcID | FMsgid => AMsgID end.

Inductive st :=
| S1                       (* before '<' *)
| S2 | S3 | S593 | S594 | S595   (* PRIVAL *)
| S4 | S5 | S591 | S592    (* VERSION *)
| S6 | S7 | STs (n : N)    (* TIMESTAMP *)
| SWord (f : fld) (k : N)  (* k bytes of the word read *)
| S16 | S603 | S604        (* STRUCTURED-DATA; after NILVALUE; after the space *)
| SId (k : N) | SPn (k : N) (* k bytes of SD-ID / PARAM-NAME read *)
| S52 | S53 | S54 | S55 | S56 | SUtf (n : N)   (* '=', value *)
| S606                     (* after ']' *)
| S607 | S608              (* any message *)
| S609 | S610 | S611 | S612 | S613 | SMu (n : N) (* compliant message *)
| SFail.

Definition num (s : st) : N :=
  match s with
  | S1 => 1 | S2 => 2 | S3 => 3 | S593 => 593 | S594 => 594 | S595 => 595
  | S4 => 4 | S5 => 5 | S591 => 591 | S592 => 592 | S6 => 6 | S7 => 7 | STs n => n
  | SWord FHost k => if k <? 2 then 8 + k else 298 + k
  | SWord FApp k => if k <? 2 then 10 + k else 251 + k
  | SWord FProc k => if k <? 2 then 12 + k else 124 + k
  | SWord FMsgid k => if k <? 2 then 14 + k else 93 + k
  | S16 => 16 | S603 => 603 | S604 => 604
  | SId k => if k <? 2 then 17 + k else 62 + k
  | SPn k => 19 + k
  | S52 => 52 | S53 => 53 | S54 => 54 | S55 => 55 | S56 => 56 | SUtf n => n
  | S606 => 606 | S607 => 607 | S608 => 608 | S609 => 609 | S610 => 610 | S611 => 611 | S612 => 612 | S613 => 613
  | SMu n => n | SFail => 614
  end.

Definition btw (lo hi c : N) : bool := (lo <=? c) && (c <=? hi).
Definition is_dig (c : N) : bool := btw 48 57 c.
Definition is_graph (c : N) : bool := btw 33 126 c.
(* SD-NAME characters *)
Definition is_sdc (c : N) : bool := is_graph c && negb (c =? 34) && negb (c =? 61) && negb (c =? 93).

Notation tr := (tree act cnd st).
Fixpoint acts (l : list act) (t : tr) : tr := match l with [] => t | a :: r => TAct a (acts r t) end.

(* (m.p)--; goto st614: the fail state then rereads the same byte *)
Definition fail (b : byte) : tr := if (bN b =? 10) || (bN b =? 13) then TOut 0 else TNext SFail.
(* the same at the end of the input *)
Definition efail : tr := TOut 614.
Definition errt (k : ekind) (f : tr) : tr := TAct (AErr k) f.

Definition time_t (ok fl : tr) : tr :=
  TAct ATimeParse (TIf CTimeErr (TAct AErrTime fl) (acts [ATimestamp; ATimestampSet] ok)).
Definition sdid_err (f : tr) : tr :=
  TAct ASdDelElem (TIf CSdEmpty (TAct (AHasElements false) (errt ESdID f)) (errt ESdID f)).
Definition setid_t (ok fl : tr) : tr :=
  TAct AIdLookup (TIf CIdExists (errt ESdIDDuplicated fl) (acts [AIdLocal; ASdNewElem; AHasElements true; ACurElem] ok)).
Definition param_err (f : tr) : tr :=
  TIf CSdNonEmpty (TAct ASdDelParam (errt ESdParam f)) (errt ESdParam f).
Definition setval_t (t : tr) : tr :=
  TIf CHasElements (TAct ATextLocal (TIf CHasBackslash (acts [ATextStrip; ASdSetParam] t) (TAct ASdSetParam t))) t.
Definition msg_err (f : tr) : tr :=
  let e := TIf CCompliant (errt EMsgNotCompliant f) (errt EMsg f) in TIf CMsgat (TAct AMessagePartial e) e.

(* the timestamp automaton: next state *)
Definition ts_next (n c : N) : option N :=
  let d lo hi t := if btw lo hi c then Some t else None in
  let z4 := if (c =? 43) || (c =? 45) then Some 573 else if c =? 90 then Some 578 else None in
  match n with
  | 554 => d 48 57 555 | 555 => d 48 57 556 | 556 => d 48 57 557
  | 557 => d 45 45 558
  | 558 => if c =? 48 then Some 559 else if c =? 49 then Some 590 else None
  | 559 => d 49 57 560 | 590 => d 48 50 560
  | 560 => d 45 45 561
  | 561 => if c =? 48 then Some 562 else if c =? 51 then Some 589 else d 49 50 588
  | 562 => d 49 57 563 | 588 => d 48 57 563 | 589 => d 48 49 563
  | 563 => d 84 84 564
  | 564 => if c =? 50 then Some 587 else d 48 49 565
  | 565 => d 48 57 566 | 587 => d 48 51 566
  | 566 => d 58 58 567 | 567 => d 48 53 568 | 568 => d 48 57 569
  | 569 => d 58 58 570 | 570 => d 48 53 571 | 571 => d 48 57 572
  | 572 => if c =? 46 then Some 580 else z4
  | 580 => d 48 57 581
  | 581 => if is_dig c then Some 582 else z4
  | 582 => if is_dig c then Some 583 else z4
  | 583 => if is_dig c then Some 584 else z4
  | 584 => if is_dig c then Some 585 else z4
  | 585 => if is_dig c then Some 586 else z4
  | 586 => z4
  | 573 => if c =? 50 then Some 579 else d 48 49 574
  | 574 => d 48 57 575 | 579 => d 48 51 575
  | 575 => d 58 58 576 | 576 => d 48 53 577 | 577 => d 48 57 578
  | _ => None
  end.

(* UTF-8 sequences, shared by param values (base 54, tails 57..63) and compliant messages (613, 596..602) *)
Definition utf_start (c : N) : option N :=
  if btw 194 223 c then Some 0
  else if c =? 224 then Some 1
  else if c =? 237 then Some 3
  else if btw 225 239 c then Some 2
  else if c =? 240 then Some 4
  else if btw 241 243 c then Some 5
  else if c =? 244 then Some 6 else None.
(* tail state i and byte -> Some None: complete, Some (Some j): tail state j *)
Definition utf_tail (i c : N) : option (option N) :=
  match i with
  | 0 => if btw 128 191 c then Some None else None
  | 1 => if btw 160 191 c then Some (Some 0) else None
  | 2 => if btw 128 191 c then Some (Some 0) else None
  | 3 => if btw 128 159 c then Some (Some 0) else None
  | 4 => if btw 144 191 c then Some (Some 2) else None
  | 5 => if btw 128 191 c then Some (Some 2) else None
  | _ => if btw 128 143 c then Some (Some 2) else None
  end.

Definition val_t (b : byte) (pre : list act) : tr :=
  let c := bN b in
  if c =? 34 then acts pre (setval_t (TNext S55))
  else if c =? 92 then acts pre (TAct ABackAppend (TNext S56))
  else if c =? 93 then errt EEscape (fail b)
  else if c <? 128 then acts pre (TNext S54)
  else match utf_start c with Some i => acts pre (TNext (SUtf (57 + i))) | None => errt EEscape (fail b) end.

Definition delta (s : st) (b : byte) : tr :=
  let c := bN b in
  let setpri := [APriority; APrioritySet] in
  match s with
  | S1 => if c =? 60 then TNext S2 else errt EPri (fail b)
  | S2 => if c =? 48 then TAct APb (TNext S3) else if c =? 49 then TAct APb (TNext S593)
          else if btw 50 57 c then TAct APb (TNext S594) else errt EPrival (fail b)
  | S3 => acts setpri (if c =? 62 then TNext S4 else errt EPrival (fail b))
  | S593 => acts setpri (if c =? 62 then TNext S4 else if btw 48 56 c then TNext S594 else if c =? 57 then TNext S595 else errt EPrival (fail b))
  | S594 => acts setpri (if c =? 62 then TNext S4 else if is_dig c then TNext S3 else errt EPrival (fail b))
  | S595 => acts setpri (if c =? 62 then TNext S4 else if btw 48 49 c then TNext S3 else errt EPrival (fail b))
  | S4 => if btw 49 57 c then TAct APb (TNext S5) else errt EVersion (fail b)
  | S5 => TAct AVersion (if c =? 32 then TNext S6 else if is_dig c then TNext S591 else errt EParse (fail b))
  | S591 => TAct AVersion (if c =? 32 then TNext S6 else if is_dig c then TNext S592 else errt EVersion (fail b))
  | S592 => TAct AVersion (if c =? 32 then TNext S6 else errt EVersion (fail b))
  | S6 => if c =? 45 then TNext S7 else if is_dig c then TAct APb (TNext (STs 554)) else errt ETimestamp (fail b)
  | S7 => if c =? 32 then TNext (SWord FHost 0) else errt EParse (fail b)
  | STs n => if n =? 578 then time_t (if c =? 32 then TNext (SWord FHost 0) else errt EParse (fail b)) (fail b)
             else match ts_next n c with Some m => TNext (STs m) | None => errt ETimestamp (fail b) end
  | SWord f k =>
      if (c =? 32) && (0 <? k) then TAct (fact f) (TNext (match f with FHost => SWord FApp 0 | FApp => SWord FProc 0 | FProc => SWord FMsgid 0 | FMsgid => S16 end))
      else if is_graph c && (k <? fmax f) then (if k =? 0 then TAct APb (TNext (SWord f 1)) else TNext (SWord f (k + 1)))
      else errt (ferr f) (fail b)
  | S16 => if c =? 45 then TNext S603 else if c =? 91 then TAct ASdInit (TNext (SId 0)) else errt EStructuredData (fail b)
  | S603 => if c =? 32 then TNext S604 else errt EParse (fail b)
  | S604 => TIf CCompliant (acts [APb; AMsgat] (TNext (if c =? 239 then S611 else S610))) (acts [APb; AMsgat] (TNext S608))
  | SId k => if is_sdc c && (k <? 32) then (if k =? 0 then TAct APb (TNext (SId 1)) else TNext (SId (k + 1)))
             else if k =? 0 then sdid_err (fail b)
             else if c =? 32 then setid_t (TNext (SPn 0)) (fail b)
             else if c =? 93 then setid_t (TNext S606) (fail b)
             else setid_t (sdid_err (fail b)) (fail b)
  | SPn k => if is_sdc c && (k <? 32) then (if k =? 0 then acts [ABackReset; APb] (TNext (SPn 1)) else TNext (SPn (k + 1)))
             else if (c =? 61) && (0 <? k) then TAct ACurParam (TNext S52)
             else param_err (fail b)
  | S52 => if c =? 34 then TNext S53 else param_err (fail b)
  | S53 => val_t b [APb]
  | S54 => val_t b []
  | S55 => if c =? 32 then TNext (SPn 0) else if c =? 93 then TNext S606 else param_err (fail b)
  | S56 => if (c =? 34) || (c =? 92) || (c =? 93) then TNext S54 else errt EEscape (fail b)
  | SUtf n => match utf_tail (n - 57) c with Some None => TNext S54 | Some (Some j) => TNext (SUtf (57 + j)) | None => param_err (fail b) end
  | S606 => if c =? 32 then TNext S604 else if c =? 91 then TNext (SId 0) else errt EStructuredData (fail b)
  | S607 => acts [APb; AMsgat] (TNext S608)
  | S608 => TNext S608
  | S609 => acts [APb; AMsgat] (TNext (if c =? 239 then S611 else S610))
  | S610 => TNext S610
  | S611 => TNext (if c =? 187 then S612 else S610)
  | S612 => TNext (if c =? 191 then S613 else S610)
  | S613 => if c <? 128 then TNext S613 else match utf_start c with Some i => TNext (SMu (596 + i)) | None => msg_err (fail b) end
  | SMu n => match utf_tail (n - 596) c with Some None => TNext S613 | Some (Some j) => TNext (SMu (596 + j)) | None => msg_err (fail b) end
  | SFail => if (c =? 10) || (c =? 13) then TOut 0 else TNext SFail
  end.

Definition edelta (s : st) : tr :=
  match s with
  | S1 => errt EPri efail
  | S2 | S3 | S593 | S594 | S595 => errt EPrival efail
  | S4 | S591 | S592 => errt EVersion efail
  | S5 => TAct AVersion (errt EParse efail)
  | S6 => errt ETimestamp efail
  | S7 => errt EParse efail
  | STs n => if n =? 578 then time_t (errt EParse efail) efail else errt ETimestamp efail
  | SWord f _ => errt (ferr f) efail
  | S16 => errt EStructuredData efail
  | S603 => TOut 603 | S604 => TOut 604
  | SId k => if k =? 0 then sdid_err efail else setid_t (sdid_err efail) efail
  | SPn _ | S52 | S55 | SUtf _ => param_err efail
  | S53 | S54 | S56 => errt EEscape efail
  | S606 => TOut 606
  | S607 => acts [APb; AMsgat; AMessage] (TOut 607)
  | S608 => TAct AMessage (TOut 608)
  | S609 => acts [APb; AMsgat; AMessage] (TOut 609)
  | S610 => TAct AMessage (TOut 610) | S611 => TAct AMessage (TOut 611) | S612 => TAct AMessage (TOut 612) | S613 => TAct AMessage (TOut 613)
  | SMu _ => msg_err efail
  | SFail => TOut 614
  end.

Definition ok (s : st) : bool :=
  match s with
  | S1 => false    (* only the start state *)
  | STs n => btw 554 590 n
  | SWord f k => k <=? fmax f
  | SId k | SPn k => k <=? 32
  | SUtf n => btw 57 63 n
  | SMu n => btw 596 602 n
  | _ => true
  end.

Definition range (lo n : nat) : list N := map N.of_nat (seq lo n).
Definition all_states : list st :=
  [S2; S3; S593; S594; S595; S4; S5; S591; S592; S6; S7; S16; S603; S604; S52; S53; S54; S55; S56; S606; S607; S608;
   S609; S610; S611; S612; S613; SFail]
  ++ map STs (range 554 37) ++ map (SWord FHost) (range 0 256) ++ map (SWord FApp) (range 0 49)
  ++ map (SWord FProc) (range 0 129) ++ map (SWord FMsgid) (range 0 33) ++ map SId (range 0 33) ++ map SPn (range 0 33)
  ++ map SUtf (range 57 7) ++ map SMu (range 596 7).

Lemma in_range lo n k : (N.of_nat lo <= k < N.of_nat (lo + n)) -> In k (range lo n).
Proof. intros H. apply in_map_iff. exists (N.to_nat k). split; [lia|]. apply in_seq. lia. Qed.

Lemma all_states_complete s : ok s = true -> In s all_states.
Proof.
  unfold all_states. intros H. repeat rewrite in_app_iff.
  destruct s as [| | | | | | | | | | | |n|f k| | | |k|k| | | | | |n| | | | | | | | |n|];
    try (left; cbn; tauto); try discriminate H; cbn [ok btw] in H; unfold btw in H; rewrite ?andb_true_iff, ?N.leb_le in H.
  - right; left. apply in_map, in_range. lia.
  - destruct f; cbn [fmax] in H; do 2 right; [left|right;left|do 2 right;left|do 3 right;left]; apply in_map, in_range; lia.
  - do 6 right; left. apply in_map, in_range. lia.
  - do 7 right; left. apply in_map, in_range. lia.
  - do 8 right; left. apply in_map, in_range. lia.
  - do 9 right. apply in_map, in_range. lia.
Qed.

(* the code *)
Definition code5424 := Eval vm_compute in link prog5424.

Notation ptab := (tab code5424).
Notation petab := (etab code5424).
Definition teq := tree_eqb act_eqb cnd_beq.

Definition check_state (s : st) : bool :=
  st_shapeb code5424 (num s)
  && forallb (fun b => teq (ptab (num s) b) (tmap num (delta s b)) && tok ok (delta s b)) all_bytes
  && teq (petab (num s)) (tmap num (edelta s)) && tok (fun _ => false) (edelta s).

Lemma check_all : forallb check_state all_states = true.
Proof. vm_compute. reflexivity. Qed.

Lemma teq_ok t u : teq t u = true -> t = u.
Proof. apply tree_eqb_ok; [apply act_eqb_ok|apply cnd_eqb_ok]. Qed.

Lemma sim5424 : sim_ok code5424 num ok delta edelta.
Proof.
  intros s Hs. pose proof check_all as H. eapply forallb_forall in H; [|apply all_states_complete; exact Hs].
  unfold check_state in H. apply andb_true_iff in H as [H H4]. apply andb_true_iff in H as [H H3].
  apply andb_true_iff in H as [H1 H2].
  split; [apply st_shapeb_ok; exact H1|]. split; [|split; [apply teq_ok; exact H3|exact H4]].
  intros b. pose proof (forall_bytes _ H2 b) as Hb. apply andb_true_iff in Hb as [Hb1 Hb2].
  split; [apply teq_ok; exact Hb1|exact Hb2].
Qed.

Definition check_entry : bool :=
  forallb (fun b => teq (pevl code5424 pev_fuel LEntry (Kn (KAt b) (Some 1) None)) (tmap num (delta S1 b)) && tok ok (delta S1 b)) all_bytes
  && teq (pevl code5424 pev_fuel LEntry (Kn KEnd (Some 1) None)) (tmap num (edelta S1)) && tok (fun _ => false) (edelta S1).
Lemma check_entry_ok : check_entry = true.
Proof. vm_compute. reflexivity. Qed.
Lemma entry5424 : entry_ok code5424 num ok delta edelta S1.
Proof.
  pose proof check_entry_ok as H. unfold check_entry in H.
  apply andb_true_iff in H as [H H3]. apply andb_true_iff in H as [H1 H2].
  split; [|split; [apply teq_ok; exact H2|exact H3]].
  intros b. pose proof (forall_bytes _ H1 b) as Hb. apply andb_true_iff in Hb as [Hb1 Hb2].
  split; [apply teq_ok; exact Hb1|exact Hb2].
Qed.

(* the machine as a function of the remaining input *)
Notation run5424 := (arun sem_act sem_cnd delta edelta).

Theorem exec_run5424 data x w :
  exec sem_act sem_cnd code5424 data (exec_fuel data) LEntry (G 0 1 w x) = run5424 data S1 0 data x.
Proof. apply (exec_arun sem_act sem_cnd code5424 num ok delta edelta sim5424 data S1 x w entry5424). Qed.
