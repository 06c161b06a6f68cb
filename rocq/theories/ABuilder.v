(* The structured automaton of rfc5424/builder.go and the proof that the goto program (GenBuilder.v)
   behaves like it, for every state and every byte. *)
From Coq Require Import FMapPositive.
From Verif Require Import Bytes GoMap GoTime Common GotoLang M5424Def A5424 M5424 BuilderBaseDef GenBuilder.
Local Open Scope N_scope.

(* the words: header fields, SD-ID and PARAM-NAME *)
Inductive wd := WHost | WApp | WProc | WMsgid | WId | WPn.
Definition wmax (w : wd) : N := match w with WHost => 255 | WApp => 48 | WProc => 128 | WMsgid => 32 | WId => 32 | WPn => 32 end.
Definition wchar (w : wd) (c : N) : bool := match w with WId | WPn => is_sdc c | _ => is_graph c end.

Inductive bst :=
| BTs0 | BTs (n : N)             (* timestamp; n as in rfc5424/machine.go (A5424.ts_next) *)
| BW (w : wd) (k : N)            (* k bytes of a word read *)
| BV0 | BV | BEsc | BU (i : N)   (* parameter value: start, inside, after a backslash, inside a UTF-8 sequence *)
| BM0 | BM.                      (* message *)

Definition bnum (s : bst) : N :=
  match s with
  | BTs0 => 1 | BTs n => if n =? 578 then 54 else if n <? 578 then n - 552 else n - 553
  | BW w k => if k =? 0 then match w with WHost => 38 | WApp => 39 | WProc => 40 | WMsgid => 41 | WId => 42 | WPn => 43 end
              else match w with WHost => 54 | WApp => 309 | WProc => 357 | WMsgid => 485 | WId => 517 | WPn => 549 end + k
  | BV0 => 582 | BV => 583 | BEsc => 44 | BU i => 45 + i | BM0 => 52 | BM => 53
  end.

Notation btr := (tree act cnd bst).
Fixpoint bacts (l : list act) (t : btr) : btr := match l with [] => t | a :: r => TAct a (bacts r t) end.

Definition bval_t (c : N) (pre : list act) : btr :=
  if (c =? 34) || (c =? 93) then TOut 0
  else if c =? 92 then bacts pre (TAct BBackAppend (TNext BEsc))
  else if c <? 128 then bacts pre (TNext BV)
  else match utf_start c with Some i => bacts pre (TNext (BU i)) | None => TOut 0 end.

Definition bdelta (s : bst) (b : byte) : btr :=
  let c := bN b in
  match s with
  | BTs0 => if is_dig c then TAct BPb (TNext (BTs 554)) else TOut 0
  | BTs n => match ts_next n c with Some m => TNext (BTs m) | None => TOut 0 end
  | BW w k => if wchar w c && (k <? wmax w) then (if k =? 0 then TAct BPb (TNext (BW w 1)) else TNext (BW w (k + 1))) else TOut 0
  | BV0 => bval_t c [BPb]
  | BV => bval_t c []
  | BEsc => if (c =? 34) || (c =? 92) || (c =? 93) then TNext BV else TOut 0
  | BU i => match utf_tail i c with Some None => TNext BV | Some (Some j) => TNext (BU j) | None => TOut 0 end
  | BM0 => TAct BPb (TNext BM)
  | BM => TNext BM
  end.

Definition bstore (w : wd) (t : btr) : btr :=
  match w with
  | WHost => TAct BSLocal (TIf CSNotDash (TAct BHostname t) t)
  | WApp => TAct BSLocal (TIf CSNotDash (TAct BAppname t) t)
  | WProc => TAct BSLocal (TIf CSNotDash (TAct BProcID t) t)
  | WMsgid => TAct BSLocal (TIf CSNotDash (TAct BMsgID t) t)
  | WId => let u := bacts [BIdLocal; BElements; BIdLookup] (TIf CIdMissing (TAct BSdNewElem t) t) in TIf CSdNil (TAct BSdInit u) u
  | WPn => bacts [BElements; BSdNewParam] t
  end.
Definition bsetval (t : btr) : btr :=
  TAct BTextLocal (TIf CHasBackslash (bacts [BTextStrip; BElements; BSdSetParam] t) (bacts [BElements; BSdSetParam] t)).
Definition bsetmsg (t : btr) : btr := TAct BSLocal (TIf CSNonEmpty (TAct BMessage t) t).

Definition bedelta (s : bst) : btr :=
  let out := TOut (bnum s) in
  match s with
  | BTs n => if n =? 578 then TAct BTimeParse (TIf CTimeOk (TAct BTimestamp out) out) else out
  | BW w k => if k =? 0 then out else bstore w out
  | BV0 => TAct BPb (bsetval out)
  | BV => bsetval out
  | BM0 => TAct BPb (bsetmsg out)
  | BM => bsetmsg out
  | BTs0 | BEsc | BU _ => out
  end.

Definition bok (s : bst) : bool :=
  match s with
  | BTs n => btw 554 590 n
  | BW w k => (0 <? k) && (k <=? wmax w)
  | BU i => i <? 7
  | BV | BEsc | BM => true
  | BTs0 | BV0 | BM0 => false
  end.

Definition ball_states : list bst :=
  [BV; BEsc; BM] ++ map BTs (range 554 37) ++ map BU (range 0 7)
  ++ map (BW WHost) (range 1 255) ++ map (BW WApp) (range 1 48) ++ map (BW WProc) (range 1 128) ++ map (BW WMsgid) (range 1 32)
  ++ map (BW WId) (range 1 32) ++ map (BW WPn) (range 1 32).
Lemma ball_states_complete s : bok s = true -> In s ball_states.
Proof.
  unfold ball_states. intros H. repeat rewrite in_app_iff.
  destruct s as [|n|w k| | | |i| |]; cbn [bok] in H; try discriminate; try (left; cbn; tauto).
  - unfold btw in H. rewrite andb_true_iff, !N.leb_le in H. right; left. apply in_map, in_range. lia.
  - rewrite andb_true_iff, N.leb_le, N.ltb_lt in H.
    destruct w; cbn [wmax] in H; do 3 right; [left|right;left|do 2 right;left|do 3 right;left|do 4 right;left|do 5 right]; apply in_map, in_range; lia.
  - rewrite N.ltb_lt in H. do 2 right; left. apply in_map, in_range. lia.
Qed.

(* the code *)
Definition codeB := Eval vm_compute in link progBuilder.
Definition bteq := tree_eqb act_beq cnd_beq.
Lemma bteq_ok t u : bteq t u = true -> t = u.
Proof. apply tree_eqb_ok; [apply act_eqb_ok|apply cnd_eqb_ok]. Qed.

Definition check_bstate (s : bst) : bool :=
  st_shapeb codeB (bnum s)
  && forallb (fun b => bteq (tab codeB (bnum s) b) (tmap bnum (bdelta s b)) && tok bok (bdelta s b)) all_bytes
  && bteq (etab codeB (bnum s)) (tmap bnum (bedelta s)) && tok (fun _ => false) (bedelta s).
Lemma check_ball : forallb check_bstate ball_states = true.
Proof. vm_compute. reflexivity. Qed.
Lemma simB : sim_ok codeB bnum bok bdelta bedelta.
Proof.
  intros s Hs. pose proof check_ball as H. eapply forallb_forall in H; [|apply ball_states_complete; exact Hs].
  unfold check_bstate in H. apply andb_true_iff in H as [H H4]. apply andb_true_iff in H as [H H3].
  apply andb_true_iff in H as [H1 H2].
  split; [apply st_shapeb_ok; exact H1|]. split; [|split; [apply bteq_ok; exact H3|exact H4]].
  intros b. pose proof (forall_bytes _ H2 b) as Hb. apply andb_true_iff in Hb as [Hb1 Hb2].
  split; [apply bteq_ok; exact Hb1|exact Hb2].
Qed.

(* the states set starts in *)
Definition entries : list bst := [BTs0; BW WHost 0; BW WApp 0; BW WProc 0; BW WMsgid 0; BW WId 0; BW WPn 0; BV0; BM0].
Definition check_bentry (s : bst) : bool :=
  forallb (fun b => bteq (pevl codeB pev_fuel LEntry (Kn (KAt b) (Some (bnum s)) None)) (tmap bnum (bdelta s b)) && tok bok (bdelta s b)) all_bytes
  && bteq (pevl codeB pev_fuel LEntry (Kn KEnd (Some (bnum s)) None)) (tmap bnum (bedelta s)) && tok (fun _ => false) (bedelta s).
Lemma check_bentries : forallb check_bentry entries = true.
Proof. vm_compute. reflexivity. Qed.
Lemma entry_of_check s : check_bentry s = true -> entry_ok codeB bnum bok bdelta bedelta s.
Proof.
  unfold check_bentry. intros H.
  apply andb_true_iff in H as [H H3]. apply andb_true_iff in H as [H1 H2].
  split; [|split; [apply bteq_ok; exact H2|exact H3]].
  intros b. pose proof (forall_bytes _ H1 b) as Hb. apply andb_true_iff in Hb as [Hb1 Hb2].
  split; [apply bteq_ok; exact Hb1|exact Hb2].
Qed.
Lemma entryB s : In s entries -> entry_ok codeB bnum bok bdelta bedelta s.
Proof. intros Hs. apply entry_of_check. exact (proj1 (forallb_forall check_bentry entries) check_bentries s Hs). Qed.

Theorem exec_runB data s x w : In s entries ->
  exec sem_act sem_cnd codeB data (exec_fuel data) LEntry (G 0 (bnum s) w x) = arun sem_act sem_cnd bdelta bedelta data s 0 data x.
Proof. intros Hs. apply (exec_arun sem_act sem_cnd codeB bnum bok bdelta bedelta simB data s x w (entryB s Hs)). Qed.
