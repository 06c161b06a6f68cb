(* C80: builders in several goroutines, statement by statement. *)
From Coq Require Import FMapPositive.
From Verif Require Import Bytes GoMap Common GotoLang M5424Def A5424 M5424 BuilderBaseDef ABuilder MBuilder RefBuilder ThmBuilder BConc.
From Verif Require Import BStmt.
From Verif Require Conc.
Local Open Scope Z_scope.

(* ---- the leaf statements, except those that read a package variable that may be changed by others *)
(* rc, rn: the goroutine may read currentid, currentparamname *)
Definition ract (rc rn : bool) (a : act) (data : bytes) (p : Z) (x : bvars) : option bvars :=
  match a with
  | BSdNewParam => if rc then sem_act a data p x else None
  | BSdSetParam => if rc && rn then sem_act a data p x else None
  | _ => sem_act a data p x
  end.
Lemma ract_sem rc rn a data p x y : ract rc rn a data p x = Some y -> sem_act a data p x = Some y.
Proof. unfold ract. destruct a; try (intros H; exact H); [destruct rc|destruct (rc && rn)]; congruence. Qed.
Lemma ract_all a data p x : ract true true a data p x = sem_act a data p x.
Proof. destruct a; reflexivity. Qed.

(* no statement writes them *)
Lemma act_keeps a data p x y : sem_act a data p x = Some y -> b_cid y = b_cid x /\ b_cpn y = b_cpn x.
Proof.
  destruct a; cbn [sem_act]; unfold with_btext, put_elem, bupd; intros H;
    repeat match type of H with context [match ?e with _ => _ end] => destruct e end; try discriminate; injection H as <-; split; reflexivity.
Qed.

(* ---- other values of the package variables *)
Definition other (rc rn : bool) (g : globals) (x : bvars) : bvars :=
  set_b_cid (if rc then b_cid x else currentid g) (set_b_cpn (if rn then b_cpn x else currentparamname g) x).
Lemma act_other rc rn g a data p x : ract rc rn a data p (other rc rn g x) = option_map (other rc rn g) (ract rc rn a data p x).
Proof.
  destruct a; cbn [ract sem_act]; unfold with_btext, put_elem, bupd; cbn [other b_pb b_sm b_back b_t b_s b_id b_text b_cid b_cpn set_b_cid set_b_cpn];
    try reflexivity;
    try (destruct rc, rn; cbn [andb]; try reflexivity);
    cbn [other b_pb b_sm b_back b_t b_s b_id b_text b_cid b_cpn set_b_cid set_b_cpn];
    repeat match goal with |- context [match ?e with _ => _ end] => destruct e end; try reflexivity.
Qed.
Lemma cnd_other rc rn g c x : sem_cnd c (other rc rn g x) = sem_cnd c x.
Proof. destruct c; reflexivity. Qed.

Section Commute.
Variables (rc rn : bool) (g : globals) (data : bytes).
Notation h := (other rc rn g).
Notation rrun := (run (ract rc rn) sem_cnd data).
Notation rexec := (exec (ract rc rn) sem_cnd codeB data).
Definition hs (s : bgst) : bgst := G (g_p s) (g_cs s) (g_w s) (h (g_x s)).
Definition hres (r : @GotoLang.res bvars) : @GotoLang.res bvars := match r with Fell s => Fell (hs s) | Jump l s => Jump l (hs s) | Panicked => Panicked end.
Definition hout (o : @GotoLang.outcome bvars) : @GotoLang.outcome bvars := match o with Out c x => Out c (h x) | Panic => Panic | NoFuel => NoFuel end.
Lemma eval_hs c s : eval sem_cnd data c (hs s) = eval sem_cnd data c s.
Proof. induction c; cbn [eval hs g_p g_cs g_w g_x]; try reflexivity; try (rewrite IHc1, IHc2; reflexivity); rewrite cnd_other; reflexivity. Qed.
Lemma run_hs k : forall s, rrun k (hs s) = hres (rrun k s).
Proof.
  induction k as [|a k IH|c t IHt e IHe k IH|b IHb k IH|l k IH|k IH|k IH|m k IH|m k IH|m k IH]; intros s; cbn [run].
  - reflexivity.
  - cbn [hs g_p g_x g_cs g_w]. rewrite act_other. destruct (ract rc rn a data (g_p s) (g_x s)) as [x|]; cbn [option_map]; [|reflexivity].
    apply (IH (G (g_p s) (g_cs s) (g_w s) x)).
  - rewrite eval_hs. destruct (eval sem_cnd data c s) as [[]|]; [rewrite IHt|rewrite IHe|reflexivity];
      [destruct (rrun t s)|destruct (rrun e s)]; cbn [hres]; try reflexivity; apply IH.
  - rewrite IHb. destruct (rrun b s); cbn [hres]; try reflexivity; apply IH.
  - reflexivity.
  - apply (IH (G (g_p s + 1) (g_cs s) (g_w s) (g_x s))).
  - apply (IH (G (g_p s - 1) (g_cs s) (g_w s) (g_x s))).
  - apply (IH (G (g_p s) m (g_w s) (g_x s))).
  - cbn [hs g_p]. destruct (znth data (g_p s)) as [b|]; [|reflexivity]. apply (IH (G (g_p s) (g_cs s) (m + bN b) (g_x s))).
  - apply (IH (G (g_p s) (g_cs s) (g_w s + m) (g_x s))).
Qed.
Lemma exec_hs f : forall l s, rexec f l (hs s) = hout (rexec f l s).
Proof.
  induction f as [|f IH]; intros l s; cbn [exec]; [reflexivity|]. destruct (PositiveMap.find (key l) codeB) as [[k nx]|]; [|reflexivity].
  rewrite run_hs. destruct (rrun k s) as [s'|l' s'|]; cbn [hres]; [destruct nx; [apply IH|reflexivity]|apply IH|reflexivity].
Qed.
Lemma stack_hs ks : forall s, Conc.run_stack (ract rc rn) sem_cnd data ks (hs s) = hres (Conc.run_stack (ract rc rn) sem_cnd data ks s).
Proof.
  induction ks as [|k ks IH]; intros s; cbn [Conc.run_stack]; [reflexivity|]. rewrite run_hs. destruct (rrun k s); cbn [hres]; try reflexivity; apply IH.
Qed.
End Commute.

Notation remaining rc rn := (Conc.remaining (ract rc rn) sem_cnd codeB).
Lemma remaining_hs rc rn g data f ks nx s : remaining rc rn data f ks nx (hs rc rn g s) = hout rc rn g (remaining rc rn data f ks nx s).
Proof.
  unfold Conc.remaining. rewrite stack_hs. destruct (Conc.run_stack (ract rc rn) sem_cnd data ks s) as [s'|l s'|]; cbn [hres].
  - destruct nx; [apply exec_hs|reflexivity].
  - apply exec_hs.
  - reflexivity.
Qed.

(* the call of set will end with the message m, if the package variables that may be read keep the values they have in g *)
Definition ends (rc rn : bool) (g : globals) (data : bytes) (f : nat) (ks : list bcode) (nx : option label) (s : bgst) (m : message) : Prop :=
  exists cs y, remaining rc rn data f ks nx (seen g s) = Out cs y /\ b_sm y = m.
Lemma ends_other rc rn g g' data f ks nx s m : (rc = true -> currentid g' = currentid g) -> (rn = true -> currentparamname g' = currentparamname g) ->
  ends rc rn g data f ks nx s m -> ends rc rn g' data f ks nx s m.
Proof.
  intros H1 H2 [cs [y [E Y]]]. exists cs, (other rc rn g' y). split; [|exact Y].
  replace (seen g' s) with (hs rc rn g' (seen g s)); [rewrite remaining_hs, E; reflexivity|].
  unfold hs, seen, other. cbn [g_p g_cs g_w g_x b_cid b_cpn set_b_cid set_b_cpn]. destruct s as [p c w x]. cbn [g_p g_cs g_w g_x]. f_equal.
  unfold set_b_cid, set_b_cpn. cbn. f_equal; [destruct rc; [symmetry; auto|reflexivity]|destruct rn; [symmetry; auto|reflexivity]].
Qed.
Lemma seen_same g s : b_cid (g_x s) = currentid g -> b_cpn (g_x s) = currentparamname g -> seen g s = s.
Proof. destruct s as [p c w x]. destruct x. cbn. intros -> ->. reflexivity. Qed.

Lemma ends_stmt rc rn g data f k ks nx s m : ends rc rn g data f (k :: ks) nx s m ->
  exists s' ks' nx', sstmt data (seen g s) k ks nx = Some (s', ks', nx') /\ ends rc rn g data f ks' nx' s' m /\ (Conc.ssize ks' < Conc.ssize (k :: ks))%nat.
Proof.
  intros [cs [y [H Y]]]. unfold Conc.remaining in H. cbn [Conc.run_stack] in H. set (u := seen g s) in *.
  assert (Hc : b_cid (g_x u) = currentid g /\ b_cpn (g_x u) = currentparamname g) by (split; reflexivity). destruct Hc as [C1 C2].
  assert (W : forall s' ks' nx', b_cid (g_x s') = currentid g -> b_cpn (g_x s') = currentparamname g ->
     remaining rc rn data f ks' nx' s' = Out cs y -> ends rc rn g data f ks' nx' s' m).
  { intros s' ks' nx' A B E. exists cs, y. rewrite seen_same by assumption. auto. }
  pose proof (Conc.csize_pos (A := act) (C := cnd)) as Pos.
  destruct k as [|a k|q th el k|b k|l k|k|k|n k|n k|n k]; cbn [run sstmt] in *.
  - eexists _, _, _. split; [reflexivity|]. split; [apply W; assumption|unfold Conc.ssize; cbn [fold_right Conc.csize]; lia].
  - destruct (ract rc rn a data (g_p u) (g_x u)) as [x|] eqn:Er; [|discriminate]. rewrite (ract_sem _ _ _ _ _ _ _ Er). eexists _, _, _. split; [reflexivity|].
    destruct (act_keeps _ _ _ _ _ (ract_sem _ _ _ _ _ _ _ Er)) as [K1 K2]. split; [apply W; cbn [g_x]; [congruence|congruence|exact H]|unfold Conc.ssize; cbn [fold_right Conc.csize]; lia].
  - destruct (eval sem_cnd data q u) as [b|]; [|discriminate]. eexists _, _, _. split; [reflexivity|]. split.
    + apply W; try assumption. unfold Conc.remaining. cbn [Conc.run_stack]. destruct b; (destruct (run (ract rc rn) sem_cnd data _ u) as [s'|l s'|]; [|exact H|exact H]); exact H.
    + unfold Conc.ssize; cbn [fold_right Conc.csize]. pose proof (Pos th). pose proof (Pos el). destruct b; lia.
  - eexists _, _, _. split; [reflexivity|]. split; [|unfold Conc.ssize; cbn [fold_right Conc.csize]; lia]. apply W; try assumption. unfold Conc.remaining. cbn [Conc.run_stack]. destruct (run (ract rc rn) sem_cnd data b u) as [s'|l s'|]; exact H.
  - eexists _, _, _. split; [reflexivity|]. split; [apply W; assumption|unfold Conc.ssize; cbn [fold_right Conc.csize]; lia].
  - eexists _, _, _. split; [reflexivity|]. split; [apply W; assumption|unfold Conc.ssize; cbn [fold_right Conc.csize]; lia].
  - eexists _, _, _. split; [reflexivity|]. split; [apply W; assumption|unfold Conc.ssize; cbn [fold_right Conc.csize]; lia].
  - eexists _, _, _. split; [reflexivity|]. split; [apply W; assumption|unfold Conc.ssize; cbn [fold_right Conc.csize]; lia].
  - destruct (znth data (g_p u)) as [b|]; [|discriminate]. eexists _, _, _. split; [reflexivity|]. split; [apply W; assumption|unfold Conc.ssize; cbn [fold_right Conc.csize]; lia].
  - eexists _, _, _. split; [reflexivity|]. split; [apply W; assumption|unfold Conc.ssize; cbn [fold_right Conc.csize]; lia].
Qed.

(* ---- a complete call of set *)
(* a tree of the automaton uses only permitted statements, and stays among permitted states *)
Fixpoint fine (rc rn : bool) (okst : bst -> bool) (t : tree act cnd bst) : bool :=
  match t with
  | TNext n => okst n
  | TOut _ | TBad => true
  | TAct a t => match a with BSdNewParam => rc | BSdSetParam => rc && rn | _ => true end && fine rc rn okst t
  | TIf _ t e => fine rc rn okst t && fine rc rn okst e
  end.
Lemma texec_fine rc rn okst data t p : forall x n1 n2, fine rc rn okst t = true -> (forall s y, okst s = true -> n1 s y = n2 s y) ->
  texec (ract rc rn) sem_cnd data t p x n1 = texec sem_act sem_cnd data t p x n2.
Proof.
  induction t as [n|c|a t IH|c t IHt e IHe|]; intros x n1 n2 H Hn; cbn [texec fine] in *; auto.
  - apply andb_true_iff in H as [Ha H]. replace (ract rc rn a data p x) with (sem_act a data p x).
    + destruct (sem_act a data p x); [apply IH; assumption|reflexivity].
    + unfold ract. destruct a; try reflexivity; rewrite Ha; reflexivity.
  - apply andb_true_iff in H as [H1 H2]. destruct (sem_cnd c x); auto.
Qed.
Lemma arun_fine rc rn okst data : (forall s, okst s = true -> fine rc rn okst (bedelta s) = true /\ forall b, fine rc rn okst (bdelta s b) = true) ->
  forall rest s p x, okst s = true -> arun (ract rc rn) sem_cnd bdelta bedelta data s p rest x = arun sem_act sem_cnd bdelta bedelta data s p rest x.
Proof.
  intros H. induction rest as [|b r IH]; intros s p x Hs; cbn [arun].
  - apply (texec_fine rc rn okst); [apply H; exact Hs|reflexivity].
  - apply (texec_fine rc rn okst); [apply H; exact Hs|]. intros s' y Hs'. apply IH. exact Hs'.
Qed.
Definition plain_state (s : bst) : bool := match s with BTs0 | BTs _ | BM0 | BM => true | BW WPn _ => false | BW _ _ => true | _ => false end.
Definition name_state (s : bst) : bool := match s with BW WPn _ => true | _ => false end.
Lemma plain_fine s : plain_state s = true -> fine false false plain_state (bedelta s) = true /\ forall b, fine false false plain_state (bdelta s b) = true.
Proof.
  intros H. destruct s as [|n|w k| | | |i| |]; try discriminate H; split; intros; cbn [bedelta bdelta fine]; try reflexivity.
  - destruct (is_dig (bN b)); reflexivity.
  - destruct (n =? 578)%N; reflexivity.
  - destruct (ts_next n (bN b)); reflexivity.
  - destruct (k =? 0)%N; [reflexivity|]. destruct w; try discriminate H; reflexivity.
  - destruct (wchar w (bN b) && (k <? wmax w)%N); [|reflexivity]. destruct (k =? 0)%N; destruct w; try discriminate H; reflexivity.
Qed.
Lemma name_fine s : name_state s = true -> fine true false name_state (bedelta s) = true /\ forall b, fine true false name_state (bdelta s b) = true.
Proof.
  intros H. destruct s as [|n|w k| | | |i| |]; try discriminate H; destruct w; try discriminate H; split; intros; cbn [bedelta bdelta fine].
  - destruct (k =? 0)%N; reflexivity.
  - destruct (wchar WPn (bN b) && (k <? wmax WPn)%N); [|reflexivity]. destruct (k =? 0)%N; reflexivity.
Qed.
(* which package variables a call of set may read *)
Definition reads_cid (e : entrypoint) : bool := match e with EpSdpn | EpSdpv => true | _ => false end.
Definition reads_cpn (e : entrypoint) : bool := match e with EpSdpv => true | _ => false end.
Lemma enter_ends e g sm v m : bset e g sm v = Some m ->
  exists f, ends (reads_cid e) (reads_cpn e) g v f [] (Some LEntry) (G 0 (translate e) 0 (BVars 0 [] sm [] [] None [] [] false [])) m.
Proof.
  intros H. exists (exec_fuel v). unfold ends, Conc.remaining. cbn [Conc.run_stack].
  change (seen g (G 0 (translate e) 0 (BVars 0 [] sm [] [] None [] [] false []))) with (G 0 (translate e) 0 (bstart g sm)).
  assert (E : exec (ract (reads_cid e) (reads_cpn e)) sem_cnd codeB v (exec_fuel v) LEntry (G 0 (translate e) 0 (bstart g sm)) = brun v (entry_state e) 0 v (bstart g sm)).
  { replace (translate e) with (bnum (entry_state e)) by (destruct e; reflexivity).
    rewrite (exec_arun (ract (reads_cid e) (reads_cpn e)) sem_cnd codeB bnum bok bdelta bedelta simB v (entry_state e) _ 0%N) by (apply entryB; destruct e; cbn; tauto).
    destruct e; cbn [reads_cid reads_cpn entry_state].
    all: try (apply (arun_fine false false plain_state v plain_fine); reflexivity).
    - apply (arun_fine true false name_state v name_fine). reflexivity.
    - apply (arun_fine true true (fun _ => true)); [|reflexivity]. intros s _. assert (Ht : forall t, fine true true (fun _ => true) t = true).
      { induction t as [n|c|a t IH|c t IHt e IHe|]; cbn [fine]; auto; [rewrite IH; destruct a; reflexivity|rewrite IHt, IHe; reflexivity]. }
      split; intros; apply Ht. }
  rewrite E. rewrite bset_run in H. destruct (brun v (entry_state e) 0 v (bstart g sm)) as [cs y| |]; try discriminate H. injection H as H. exists cs, y. auto.
Qed.

(* ---- what is left of a call *)
Definition aft_pname (id name v : bytes) (m : message) : option message := bset EpSdpv (Globals id name) m v.
Definition aft_name (id name v : bytes) (m : message) : option message :=
  match mget (match mget (sd_read (structuredData m)) id with Some e => e | None => [] end) name with None => Some m | Some _ => aft_pname id name v m end.
Definition aft_cid (id name v : bytes) (m : message) : option message :=
  match bset EpSdpn (Globals id []) m name with None => None | Some m2 => aft_name id name v m2 end.
Definition aft_id (id name v : bytes) (m : message) : option message :=
  match mget (sd_read (structuredData m)) id with None => Some m | Some _ => aft_cid id name v m end.
Lemma set_parameter_parts g m id name v : omsg (step g m (SetParameter id name v)) = match bset EpSdid g m id with None => None | Some m1 => aft_id id name v m1 end.
Proof.
  cbn [step]. unfold set_parameter. destruct (bset EpSdid g m id) as [m1|]; [|reflexivity]. unfold aft_id. destruct (structuredData m1) as [sd|]; [|reflexivity]. cbn [sd_read].
  destruct (mget sd id); [|reflexivity]. unfold aft_cid. rewrite (bset_currentid EpSdpn (Globals id (currentparamname g)) (Globals id [])) by (discriminate || reflexivity).
  destruct (bset EpSdpn _ m1 name) as [m2|]; [|reflexivity]. unfold aft_name. destruct (mget _ name); [|reflexivity]. unfold aft_pname. destruct (bset EpSdpv _ m2 v); reflexivity.
Qed.

(* the goroutine, inside a call, will end it with the message m *)
Definition leads (g : globals) (pc : spc) (m : message) : Prop :=
  match pc with
  | SIdle m' => m' = m
  | SSet APlain data s ks nx => exists f, ends false false g data f ks nx s m
  | SSet (AId id name v) data s ks nx => exists f m1, ends false false g data f ks nx s m1 /\ aft_id id name v m1 = Some m
  | SCid id name v m1 => aft_cid id name v m1 = Some m
  | SSet (AName id name v) data s ks nx => currentid g = id /\ exists f m2, ends true false g data f ks nx s m2 /\ aft_name id name v m2 = Some m
  | SPname id name v m2 => currentid g = id /\ aft_pname id name v m2 = Some m
  | SSet AVal data s ks nx => exists f, ends true true g data f ks nx s m
  | SPanic => False
  end.
(* m0: the message and cs: the calls at the start *)
Definition sinv (m0 : message) (cs : list call) (g : globals) (t : sthread) : Prop :=
  exists don m, cs = don ++ st_todo t /\ omsg (steps (Globals [] []) m0 don) = Some m /\ leads g (st_pc t) m.

Lemma leads_other g g' t m : in_param t = false -> leads g (st_pc t) m -> leads g' (st_pc t) m.
Proof.
  unfold in_param. destruct (st_pc t) as [m'|a data s ks nx|id name v m'|id name v m'|]; cbn [leads]; try discriminate; auto.
  destruct a; try discriminate; intros _.
  - intros [f H]. exists f. eapply ends_other; [| |exact H]; discriminate.
  - intros [f [m1 [H H']]]. exists f, m1. split; [|exact H']. eapply ends_other; [| |exact H]; discriminate.
Qed.
Lemma steps_snoc cs : forall g m c, omsg (steps g m (cs ++ [c])) = match steps g m cs with Some (g', m') => omsg (step g' m' c) | None => None end.
Proof.
  induction cs as [|d r IH]; intros g m c; cbn [app steps].
  - destruct (step g m c) as [[g' m']|]; reflexivity.
  - destruct (step g m d) as [[g' m']|]; [apply IH|reflexivity].
Qed.

(* one step of the goroutine itself *)
Lemma begin_leads g m c m' : omsg (step (Globals [] []) m c) = Some m' -> leads g (sbegin c m) m'.
Proof.
  intros H.
  assert (P : forall e v, reads_cid e = false -> reads_cpn e = false -> bset e (Globals [] []) m v = Some m' -> leads g (enter APlain e m v) m').
  { intros e v R1 R2 E. cbn [leads enter]. destruct (enter_ends e (Globals [] []) m v m' E) as [f F]. rewrite R1, R2 in F. exists f. eapply ends_other; [| |exact F]; discriminate. }
  destruct c; cbn [sbegin]; try (apply P; [reflexivity|reflexivity|]; cbn [step with_g] in H; match type of H with omsg (with_g _ ?b) = _ => destruct b; [cbn in H; congruence|discriminate H] end).
  - cbn [step] in H. destruct (valid_priority v); cbn in H; injection H as <-; reflexivity.
  - cbn [step] in H. destruct (valid_version v); cbn in H; injection H as <-; reflexivity.
  - rewrite set_parameter_parts in H. destruct (bset EpSdid (Globals [] []) m id) as [m1|] eqn:E; [|discriminate H]. cbn [leads enter].
    destruct (enter_ends EpSdid (Globals [] []) m id m1 E) as [f F]. exists f, m1. split; [|exact H]. eapply ends_other; [| |exact F]; discriminate.
Qed.
Lemma own_step g t m0 cs g' t' : sinv m0 cs g t -> sstep g t = Some (g', t') -> sinv m0 cs g' t' /\ (in_param t = false -> g' = g).
Proof.
  intros [don [m [H1 [H2 H3]]]] Hs. unfold sstep in Hs. destruct t as [pc todo]. cbn [st_pc st_todo] in *.
  destruct pc as [m'|a data s ks nx|id name v m'|id name v m'|]; cbn [leads] in H3.
  - subst m'. destruct todo as [|c r]; [discriminate|]. injection Hs as <- <-. split; [|reflexivity].
    destruct (step (Globals [] []) m c) as [[g1 m1]|] eqn:E; [|destruct (set_never_panics _ _ _ E)].
    exists (don ++ [c]), m1. cbn [st_pc st_todo]. rewrite <- app_assoc. split; [exact H1|].
    assert (Hm : omsg (step (Globals [] []) m c) = Some m1) by (rewrite E; reflexivity).
    split; [|apply begin_leads; exact Hm]. rewrite steps_snoc. destruct (steps (Globals [] []) m0 don) as [[g2 m2]|]; [|discriminate]. cbn in H2. injection H2 as ->.
    rewrite (step_globals g2 (Globals [] [])). exact Hm.
  - destruct ks as [|k ks].
    + destruct nx as [l|].
      * injection Hs as <- <-. split; [|reflexivity]. exists don, m. cbn [st_pc st_todo]. split; [exact H1|]. split; [exact H2|].
        assert (F : forall rc rn f m', ends rc rn g data f [] (Some l) s m' -> exists k nx f', PositiveMap.find (key l) codeB = Some (k, nx) /\ ends rc rn g data f' [k] nx s m').
        { intros rc rn f m' [c [y [E Y]]]. unfold Conc.remaining in E. cbn [Conc.run_stack] in E. destruct f as [|f]; [discriminate|]. cbn [exec] in E.
          destruct (PositiveMap.find (key l) codeB) as [[k nx]|]; [|discriminate]. exists k, nx, f. split; [reflexivity|]. exists c, y. split; [|exact Y].
          unfold Conc.remaining. cbn [Conc.run_stack]. destruct (run (ract rc rn) sem_cnd data k (seen g s)) as [s'|l' s'|]; exact E. }
        destruct a as [|id name v|id name v|].
        -- destruct H3 as [f H3]. destruct (F _ _ _ _ H3) as [k [nx [f' [-> E]]]]. exists f'. exact E.
        -- destruct H3 as [f [m1 [H3 H4]]]. destruct (F _ _ _ _ H3) as [k [nx [f' [-> E]]]]. exists f', m1. split; assumption.
        -- destruct H3 as [H5 [f [m1 [H3 H4]]]]. destruct (F _ _ _ _ H3) as [k [nx [f' [-> E]]]]. split; [exact H5|]. exists f', m1. split; assumption.
        -- destruct H3 as [f H3]. destruct (F _ _ _ _ H3) as [k [nx [f' [-> E]]]]. exists f'. exact E.
      * injection Hs as <- <-. split; [|reflexivity]. exists don, m. cbn [st_pc st_todo]. split; [exact H1|]. split; [exact H2|].
        assert (F : forall rc rn f m', ends rc rn g data f [] None s m' -> b_sm (g_x s) = m').
        { intros rc rn f m' [c [y [E Y]]]. unfold Conc.remaining in E. cbn [Conc.run_stack seen g_cs g_x] in E. injection E as _ <-. exact Y. }
        destruct a as [|id name v|id name v|]; cbn [sreturn].
        -- destruct H3 as [f H3]. exact (F _ _ _ _ H3).
        -- destruct H3 as [f [m1 [H3 H4]]]. rewrite (F _ _ _ _ H3). unfold aft_id in H4. destruct (mget (sd_read (structuredData m1)) id); cbn [leads]; [exact H4|congruence].
        -- destruct H3 as [H5 [f [m1 [H3 H4]]]]. rewrite (F _ _ _ _ H3). unfold aft_name in H4. destruct (mget _ name); cbn [leads]; [split; assumption|congruence].
        -- destruct H3 as [f H3]. exact (F _ _ _ _ H3).
    + injection Hs as <- <-. split; [|reflexivity]. exists don, m. cbn [st_pc st_todo]. split; [exact H1|]. split; [exact H2|].
      destruct a as [|id name v|id name v|].
      * destruct H3 as [f H3]. destruct (ends_stmt _ _ _ _ _ _ _ _ _ _ H3) as [s' [ks' [nx' [-> [E _]]]]]. exists f. exact E.
      * destruct H3 as [f [m1 [H3 H4]]]. destruct (ends_stmt _ _ _ _ _ _ _ _ _ _ H3) as [s' [ks' [nx' [-> [E _]]]]]. exists f, m1. split; assumption.
      * destruct H3 as [H5 [f [m1 [H3 H4]]]]. destruct (ends_stmt _ _ _ _ _ _ _ _ _ _ H3) as [s' [ks' [nx' [-> [E _]]]]]. split; [exact H5|]. exists f, m1. split; assumption.
      * destruct H3 as [f H3]. destruct (ends_stmt _ _ _ _ _ _ _ _ _ _ H3) as [s' [ks' [nx' [-> [E _]]]]]. exists f. exact E.
  - injection Hs as <- <-. split; [|discriminate]. exists don, m. cbn [st_pc st_todo]. split; [exact H1|]. split; [exact H2|]. unfold aft_cid in H3.
    destruct (bset EpSdpn (Globals id []) m' name) as [m2|] eqn:E; [|discriminate]. cbn [leads enter]. split; [reflexivity|].
    destruct (enter_ends EpSdpn _ _ _ _ E) as [f F]. exists f, m2. split; [|exact H3]. eapply ends_other; [| |exact F]; [reflexivity|discriminate].
  - injection Hs as <- <-. split; [|discriminate]. exists don, m. cbn [st_pc st_todo]. split; [exact H1|]. split; [exact H2|]. destruct H3 as [H3 H4]. unfold aft_pname in H4.
    cbn [leads enter]. rewrite H3. destruct (enter_ends EpSdpv _ _ _ _ H4) as [f F]. exists f. exact F.
  - destruct H3.
Qed.

Definition cfg_inv (ms : nat -> message) (css : nat -> list call) (c : sconfig) : Prop := forall i, sinv (ms i) (css i) (fst c) (snd c i).
Definition alone_in (c : sconfig) : Prop := forall i j, in_param (snd c i) = true -> in_param (snd c j) = true -> i = j.
Lemma cfg_step_inv ms css i c c' : alone_in c -> cfg_inv ms css c -> cfg_step i c = Some c' -> cfg_inv ms css c'.
Proof.
  intros HA HI Hs. unfold cfg_step in Hs. destruct (sstep (fst c) (snd c i)) as [[g' t']|] eqn:E; [|discriminate]. injection Hs as <-.
  destruct (own_step _ _ _ _ _ _ (HI i) E) as [O1 O2]. intros j. cbn [fst snd]. unfold sput. destruct (Nat.eqb_spec j i) as [-> |Hj]; [exact O1|].
  destruct (in_param (snd c i)) eqn:Ei.
  - destruct (in_param (snd c j)) eqn:Ej; [destruct Hj; apply HA; assumption|]. destruct (HI j) as [don [m [H1 [H2 H3]]]]. exists don, m. split; [exact H1|]. split; [exact H2|].
    eapply leads_other; [exact Ej|exact H3].
  - rewrite (O2 eq_refl). apply HI.
Qed.
Lemma srun_inv ms css sched : forall c c', one_at_a_time sched c -> cfg_inv ms css c -> srun sched c = Some c' -> cfg_inv ms css c' /\ alone_in c'.
Proof.
  induction sched as [|i r IH]; intros c c' HA HI H; cbn [srun one_at_a_time] in *; destruct HA as [HA HR].
  - injection H as <-. split; assumption.
  - destruct (cfg_step i c) as [c1|] eqn:E; [|discriminate]. eapply IH; [exact HR| |exact H]. eapply cfg_step_inv; eassumption.
Qed.
Lemma start_cfg_inv g ms css : cfg_inv ms css (sstart g ms css).
Proof. intros i. exists [], (ms i). split; [reflexivity|]. split; reflexivity. Qed.

(* C80: several goroutines, each with calls on a message of its own, interleaved statement by statement in any way in which no two of them
   are between the write of currentid and the end of SetParameter.  Nobody panics; and whenever a goroutine is between two calls, its
   message is the one its calls so far produce when nobody else is running. *)
Theorem builders_statement_level g ms css sched c : one_at_a_time sched (sstart g ms css) -> srun sched (sstart g ms css) = Some c ->
  forall i, st_pc (snd c i) <> SPanic
    /\ forall m, st_pc (snd c i) = SIdle m -> exists don, css i = don ++ st_todo (snd c i) /\ omsg (steps (Globals [] []) (ms i) don) = Some m.
Proof.
  intros HA H i. destruct (srun_inv ms css sched _ _ HA (start_cfg_inv g ms css) H) as [HI _]. destruct (HI i) as [don [m [H1 [H2 H3]]]]. split.
  - intros E. rewrite E in H3. exact H3.
  - intros m' E. rewrite E in H3. cbn [leads] in H3. subst m'. exists don. split; assumption.
Qed.

(* ---- every call can be finished *)
Lemma srun_app s1 : forall s2 c, srun (s1 ++ s2) c = match srun s1 c with Some c1 => srun s2 c1 | None => None end.
Proof. induction s1 as [|i r IH]; intros s2 c; cbn [app srun]; [reflexivity|]. destruct (cfg_step i c); [apply IH|reflexivity]. Qed.
Lemma sput_same f i t : sput f i t i = t. Proof. unfold sput. rewrite Nat.eqb_refl. reflexivity. Qed.
Lemma sput_other f i j t : j <> i -> sput f i t j = f j. Proof. intros H. unfold sput. destruct (Nat.eqb_spec j i); congruence. Qed.
Lemma srun_own i n m0 cs : forall c c', srun (repeat i n) c = Some c' -> sinv m0 cs (fst c) (snd c i) -> sinv m0 cs (fst c') (snd c' i).
Proof.
  induction n as [|n IH]; intros c c' H HI; cbn [repeat srun] in H; [injection H as <-; exact HI|].
  unfold cfg_step in H. destruct (sstep (fst c) (snd c i)) as [[g' t']|] eqn:E; [|discriminate]. eapply IH; [exact H|]. cbn [fst snd]. rewrite sput_same.
  apply (own_step _ _ _ _ _ _ HI E).
Qed.
Lemma srun_others i n j : forall c c', j <> i -> srun (repeat i n) c = Some c' -> snd c' j = snd c j.
Proof.
  induction n as [|n IH]; intros c c' Hj H; cbn [repeat srun] in H; [injection H as <-; reflexivity|].
  unfold cfg_step in H. destruct (sstep (fst c) (snd c i)) as [[g' t']|]; [|discriminate]. rewrite (IH _ _ Hj H). cbn [snd]. apply sput_other. exact Hj.
Qed.
(* i can get from c to c' by its own steps *)
Definition goes (i : nat) (c c' : sconfig) : Prop := exists n, srun (repeat i n) c = Some c'.
Lemma goes_trans i c c1 c2 : goes i c c1 -> goes i c1 c2 -> goes i c c2.
Proof. intros [n H1] [k H2]. exists (n + k)%nat. rewrite repeat_app, srun_app, H1. exact H2. Qed.
Lemma goes_step i c c' : cfg_step i c = Some c' -> goes i c c'.
Proof. intros H. exists 1%nat. cbn [repeat srun]. rewrite H. reflexivity. Qed.
Lemma set_finishes i f : forall n c a data s ks nx rc rn m1, st_pc (snd c i) = SSet a data s ks nx -> (Conc.ssize ks <= n)%nat -> ends rc rn (fst c) data f ks nx s m1 ->
  exists c', goes i c c' /\ st_pc (snd c' i) = sreturn a m1 /\ st_todo (snd c' i) = st_todo (snd c i) /\ fst c' = fst c.
Proof.
  induction f as [f IHf] using lt_wf_ind. induction n as [n IHn] using lt_wf_ind. intros c a data s ks nx rc rn m1 Hp Hn HE.
  assert (Hstep : cfg_step i c = Some (fst c, sput (snd c) i (match sstep (fst c) (snd c i) with Some (_, t) => t | None => snd c i end))).
  { unfold cfg_step, sstep. rewrite Hp. destruct ks as [|k ks]; [destruct nx|]; reflexivity. }
  set (t1 := match sstep (fst c) (snd c i) with Some (_, t) => t | None => snd c i end) in *.
  assert (Next : forall s' ks' nx' f', t1 = SThread (SSet a data s' ks' nx') (st_todo (snd c i)) -> ends rc rn (fst c) data f' ks' nx' s' m1 ->
     ((f' < f)%nat \/ f' = f /\ (Conc.ssize ks' < n)%nat) -> exists c', goes i c c' /\ st_pc (snd c' i) = sreturn a m1 /\ st_todo (snd c' i) = st_todo (snd c i) /\ fst c' = fst c).
  { intros s' ks' nx' f' E HE' Hlt. rewrite E in Hstep.
    assert (G : exists c', goes i (fst c, sput (snd c) i (SThread (SSet a data s' ks' nx') (st_todo (snd c i)))) c' /\ st_pc (snd c' i) = sreturn a m1 /\ st_todo (snd c' i) = st_todo (snd c i) /\ fst c' = fst c).
    { assert (Hpc : st_pc (snd (fst c, sput (snd c) i (SThread (SSet a data s' ks' nx') (st_todo (snd c i)))) i) = SSet a data s' ks' nx') by (cbn [snd]; rewrite sput_same; reflexivity).
      assert (Htd : st_todo (snd (fst c, sput (snd c) i (SThread (SSet a data s' ks' nx') (st_todo (snd c i)))) i) = st_todo (snd c i)) by (cbn [snd]; rewrite sput_same; reflexivity).
      destruct Hlt as [Hlt|[-> Hlt]].
      - destruct (IHf f' Hlt (Conc.ssize ks') _ _ _ _ _ _ _ _ _ Hpc (Nat.le_refl _) HE') as [c' [G1 [G2 [G3 G4]]]]. exists c'. split; [exact G1|]. split; [exact G2|]. split; [congruence|exact G4].
      - destruct (IHn (Conc.ssize ks') Hlt _ _ _ _ _ _ _ _ _ Hpc (Nat.le_refl _) HE') as [c' [G1 [G2 [G3 G4]]]]. exists c'. split; [exact G1|]. split; [exact G2|]. split; [congruence|exact G4]. }
    destruct G as [c' [G1 G2]]. exists c'. split; [|exact G2]. eapply goes_trans; [apply goes_step; exact Hstep|exact G1]. }
  assert (T1 : t1 = match sstep (fst c) (snd c i) with Some (_, t) => t | None => snd c i end) by reflexivity. clearbody t1. unfold sstep in T1. rewrite Hp in T1. destruct ks as [|k ks].
  - destruct nx as [l|].
    + pose proof HE as [cs [y [E Y]]]. unfold Conc.remaining in E. cbn [Conc.run_stack] in E. destruct f as [|f]; [discriminate|]. cbn [exec] in E.
      destruct (PositiveMap.find (key l) codeB) as [[k nx]|]; [|discriminate]. apply (Next s [k] nx f); [exact T1| |left; lia].
      exists cs, y. split; [|exact Y]. unfold Conc.remaining. cbn [Conc.run_stack]. destruct (run (ract rc rn) sem_cnd data k (seen (fst c) s)) as [s'|l' s'|]; exact E.
    + destruct HE as [cs [y [E Y]]]. unfold Conc.remaining in E. cbn [Conc.run_stack seen g_cs g_x] in E. injection E as _ <-. change (b_sm (g_x s) = m1) in Y.
      eexists. split; [apply goes_step; exact Hstep|]. cbn [fst snd]. rewrite sput_same, T1. cbn [st_pc st_todo]. rewrite Y. repeat split; reflexivity.
  - destruct (ends_stmt _ _ _ _ _ _ _ _ _ _ HE) as [s' [ks' [nx' [E1 [E2 E3]]]]]. rewrite E1 in T1. apply (Next s' ks' nx' f); [exact T1|exact E2|right; split; [reflexivity|lia]].
Qed.
Definition rests (i : nat) (c : sconfig) : Prop := exists c' m, goes i c c' /\ st_pc (snd c' i) = SIdle m /\ st_todo (snd c' i) = st_todo (snd c i).
Lemma rests_later i c c1 : goes i c c1 -> st_todo (snd c1 i) = st_todo (snd c i) -> rests i c1 -> rests i c.
Proof. intros H E [c' [m [G1 [G2 G3]]]]. exists c', m. split; [eapply goes_trans; eassumption|]. split; [exact G2|congruence]. Qed.
Lemma call_finishes i c m0 cs : sinv m0 cs (fst c) (snd c i) -> rests i c.
Proof.
  assert (Idle : forall c m, st_pc (snd c i) = SIdle m -> rests i c).
  { intros c0 m E. exists c0, m. split; [exists 0%nat; reflexivity|]. split; [exact E|reflexivity]. }
  assert (Val : forall c data s ks nx m, st_pc (snd c i) = SSet AVal data s ks nx -> leads (fst c) (st_pc (snd c i)) m -> rests i c).
  { intros c0 data s ks nx m E L. rewrite E in L. destruct L as [f L]. destruct (set_finishes i f _ _ _ _ _ _ _ _ _ _ E (Nat.le_refl _) L) as [c1 [G1 [G2 [G3 _]]]].
    eapply rests_later; [exact G1|exact G3|]. eapply Idle. exact G2. }
  assert (Pname : forall c id name v m' m, sinv m0 cs (fst c) (snd c i) -> st_pc (snd c i) = SPname id name v m' -> leads (fst c) (st_pc (snd c i)) m -> rests i c).
  { intros c0 id name v m' m HI E L.
    assert (S : exists c1, cfg_step i c0 = Some c1 /\ st_todo (snd c1 i) = st_todo (snd c0 i) /\ exists data s ks nx, st_pc (snd c1 i) = SSet AVal data s ks nx).
    { unfold cfg_step, sstep. rewrite E. eexists. split; [reflexivity|]. cbn [snd]. rewrite sput_same. split; [reflexivity|]. do 4 eexists. reflexivity. }
    destruct S as [c1 [S1 [S2 [data [s [ks [nx S3]]]]]]]. eapply rests_later; [apply goes_step; exact S1|exact S2|].
    destruct (srun_own i 1 m0 cs c0 c1) as [don [m1 [_ [_ L1]]]]; [cbn [repeat srun]; rewrite S1; reflexivity|exact HI|]. eapply Val; eassumption. }
  assert (Name : forall c id name v data s ks nx, sinv m0 cs (fst c) (snd c i) -> st_pc (snd c i) = SSet (AName id name v) data s ks nx -> rests i c).
  { intros c0 id name v data s ks nx HI E. pose proof HI as [don [m [_ [_ L]]]]. rewrite E in L. destruct L as [_ [f [m2 [L _]]]].
    destruct (set_finishes i f _ _ _ _ _ _ _ _ _ _ E (Nat.le_refl _) L) as [c1 [G1 [G2 [G3 _]]]]. eapply rests_later; [exact G1|exact G3|].
    destruct G1 as [n G1]. pose proof (srun_own i n m0 cs _ _ G1 HI) as HI1. pose proof HI1 as [don1 [m1 [_ [_ L1]]]]. cbn [sreturn] in G2.
    destruct (mget _ name); [eapply Pname; eassumption|eapply Idle; eassumption]. }
  assert (Cid : forall c id name v m', sinv m0 cs (fst c) (snd c i) -> st_pc (snd c i) = SCid id name v m' -> rests i c).
  { intros c0 id name v m' HI E.
    assert (S : exists c1, cfg_step i c0 = Some c1 /\ st_todo (snd c1 i) = st_todo (snd c0 i) /\ exists data s ks nx, st_pc (snd c1 i) = SSet (AName id name v) data s ks nx).
    { unfold cfg_step, sstep. rewrite E. eexists. split; [reflexivity|]. cbn [snd]. rewrite sput_same. split; [reflexivity|]. do 4 eexists. reflexivity. }
    destruct S as [c1 [S1 [S2 [data [s [ks [nx S3]]]]]]]. eapply rests_later; [apply goes_step; exact S1|exact S2|].
    eapply Name; [|exact S3]. apply (srun_own i 1 m0 cs c0 c1); [cbn [repeat srun]; rewrite S1; reflexivity|exact HI]. }
  intros HI. pose proof HI as [don [m [_ [_ L]]]]. destruct (st_pc (snd c i)) as [m'|a data s ks nx|id name v m'|id name v m'|] eqn:E.
  - eapply Idle. exact E.
  - destruct a as [|id name v|id name v|].
    + destruct L as [f L]. destruct (set_finishes i f _ _ _ _ _ _ _ _ _ _ E (Nat.le_refl _) L) as [c1 [G1 [G2 [G3 _]]]]. eapply rests_later; [exact G1|exact G3|]. eapply Idle. exact G2.
    + destruct L as [f [m1 [L _]]]. destruct (set_finishes i f _ _ _ _ _ _ _ _ _ _ E (Nat.le_refl _) L) as [c1 [G1 [G2 [G3 _]]]]. eapply rests_later; [exact G1|exact G3|].
      destruct G1 as [n G1]. pose proof (srun_own i n m0 cs _ _ G1 HI) as HI1. cbn [sreturn] in G2.
      destruct (mget _ id); [eapply Cid; eassumption|eapply Idle; eassumption].
    + eapply Name; eassumption.
    + eapply Val; [exact E|]. rewrite E. exact L.
  - eapply Cid; eassumption.
  - eapply Pname; [exact HI|exact E|]. rewrite E. exact L.
  - destruct L.
Qed.
Lemma calls_finish i m0 cs : forall n c, length (st_todo (snd c i)) = n -> sinv m0 cs (fst c) (snd c i) -> exists c' m, goes i c c' /\ snd c' i = SThread (SIdle m) [].
Proof.
  induction n as [|n IH]; intros c Hn HI; destruct (call_finishes i c m0 cs HI) as [c1 [m1 [G1 [G2 G3]]]].
  - exists c1, m1. split; [exact G1|]. destruct (snd c1 i) as [pc td]. cbn [st_pc st_todo] in *. destruct td as [|x td]; [congruence|]. rewrite <- G3 in Hn. discriminate.
  - rewrite <- G3 in Hn. destruct (st_todo (snd c1 i)) as [|k r] eqn:Et; [discriminate|].
    assert (S : exists c2, cfg_step i c1 = Some c2 /\ st_todo (snd c2 i) = r).
    { unfold cfg_step, sstep. rewrite G2, Et. eexists. split; [reflexivity|]. cbn [snd]. rewrite sput_same. reflexivity. }
    destruct S as [c2 [S1 S2]]. destruct (IH c2) as [c3 [m3 [G4 G5]]].
    + rewrite S2. cbn in Hn. lia.
    + destruct G1 as [j G1]. apply (srun_own i (j + 1) m0 cs c c2); [|exact HI]. rewrite repeat_app, srun_app, G1. cbn [repeat srun]. rewrite S1. reflexivity.
    + exists c3, m3. split; [|exact G5]. eapply goes_trans; [exact G1|]. eapply goes_trans; [apply goes_step; exact S1|exact G4].
Qed.
Lemma one_app s1 : forall s2 c c1, one_at_a_time s1 c -> srun s1 c = Some c1 -> one_at_a_time s2 c1 -> one_at_a_time (s1 ++ s2) c.
Proof.
  induction s1 as [|i r IH]; intros s2 c c1 H1 E H2; cbn [app srun one_at_a_time] in *; [injection E as <-; exact H2|]. destruct H1 as [H1 H3]. split; [exact H1|].
  destruct (cfg_step i c) as [c2|]; [|exact I]. eapply IH; eassumption.
Qed.
Lemma one_own i n : forall c, (forall j, j <> i -> in_param (snd c j) = false) -> one_at_a_time (repeat i n) c.
Proof.
  assert (Al : forall c, (forall j, j <> i -> in_param (snd c j) = false) -> alone_in c).
  { intros c H a b Ha Hb. destruct (Nat.eq_dec a i) as [-> |Na]; [|rewrite (H a Na) in Ha; discriminate]. destruct (Nat.eq_dec b i) as [-> |Nb]; [reflexivity|rewrite (H b Nb) in Hb; discriminate]. }
  induction n as [|n IH]; intros c H; cbn [repeat one_at_a_time]; (split; [apply Al; exact H|]); [exact I|].
  unfold cfg_step. destruct (sstep (fst c) (snd c i)) as [[g' t']|]; [|exact I]. apply IH. intros j Hj. cbn [snd]. rewrite sput_other by exact Hj. apply H. exact Hj.
Qed.
(* C80: and a goroutine can finish all its calls, at any point where nobody else is between the write of currentid and the end of SetParameter *)
Theorem builders_statement_level_finish g ms css sched c i : one_at_a_time sched (sstart g ms css) -> srun sched (sstart g ms css) = Some c ->
  (forall j, j <> i -> in_param (snd c j) = false) ->
  exists n c' m, one_at_a_time (sched ++ repeat i n) (sstart g ms css) /\ srun (sched ++ repeat i n) (sstart g ms css) = Some c'
    /\ snd c' i = SThread (SIdle m) [] /\ omsg (steps (Globals [] []) (ms i) (css i)) = Some m.
Proof.
  intros HA H HO. destruct (srun_inv ms css sched _ _ HA (start_cfg_inv g ms css) H) as [HI _].
  destruct (calls_finish i (ms i) (css i) _ c eq_refl (HI i)) as [c' [m [[n G1] G2]]]. exists n, c', m.
  split; [eapply one_app; [exact HA|exact H|apply one_own; exact HO]|]. split; [rewrite srun_app, H; exact G1|]. split; [exact G2|].
  destruct (srun_own i n (ms i) (css i) _ _ G1 (HI i)) as [don [m' [E1 [E2 E3]]]]. rewrite G2 in E1, E3. cbn [st_todo st_pc leads] in *. rewrite app_nil_r in E1. subst don m'. exact E2.
Qed.

(* ---- in particular: at most one goroutine uses SetParameter *)
Definition no_param (c : call) : Prop := match c with SetParameter _ _ _ => False | _ => True end.
Definition calm_thread (t : sthread) : Prop :=
  Forall no_param (st_todo t) /\ match st_pc t with SIdle _ | SSet APlain _ _ _ _ | SPanic => True | _ => False end.
Lemma calm_step g t g' t' : calm_thread t -> sstep g t = Some (g', t') -> calm_thread t'.
Proof.
  intros [H1 H2] H. unfold sstep in H. destruct t as [pc td]. cbn [st_pc st_todo] in *. destruct pc as [m|a data s ks nx|id name v m|id name v m|]; try tauto; try discriminate.
  - destruct td as [|c r]; [discriminate|]. injection H as _ <-. inversion H1; subst. split; [assumption|]. cbn [st_pc]. destruct c; cbn; tauto.
  - destruct a; try tauto. destruct ks as [|k ks]; [destruct nx as [l|]|]; injection H as _ <-; (split; [exact H1|]); cbn [st_pc sreturn]; try exact I.
    + destruct (PositiveMap.find (key l) codeB) as [[? ?]|]; exact I.
    + destruct (sstmt data (seen g s) k ks nx) as [[[? ?] ?]|]; exact I.
Qed.
Lemma calm_out t : calm_thread t -> in_param t = false.
Proof. intros [_ H]. unfold in_param. destruct (st_pc t) as [|a ? ? ? ?| | |]; try tauto; destruct a; tauto. Qed.
Theorem one_parameter_user k sched : forall c, (forall i, i <> k -> calm_thread (snd c i)) -> one_at_a_time sched c.
Proof.
  assert (Al : forall c, (forall i, i <> k -> calm_thread (snd c i)) -> alone_in c).
  { intros c H a b Ha Hb. destruct (Nat.eq_dec a k) as [-> |Na]; [|rewrite (calm_out _ (H a Na)) in Ha; discriminate]. destruct (Nat.eq_dec b k) as [-> |Nb]; [reflexivity|rewrite (calm_out _ (H b Nb)) in Hb; discriminate]. }
  induction sched as [|i r IH]; intros c H; cbn [one_at_a_time]; (split; [apply Al; exact H|]); [exact I|].
  unfold cfg_step. destruct (sstep (fst c) (snd c i)) as [[g' t']|] eqn:E; [|exact I]. apply IH. intros j Hj. cbn [snd]. unfold sput. destruct (Nat.eqb_spec j i) as [-> |Hn]; [|apply H; exact Hj].
  eapply calm_step; [apply H; exact Hj|exact E].
Qed.
Corollary one_parameter_user_start k g ms css sched : (forall i, i <> k -> Forall no_param (css i)) -> one_at_a_time sched (sstart g ms css).
Proof. intros H. apply (one_parameter_user k). intros i Hi. split; [apply H; exact Hi|exact I]. Qed.

(* ---- without the exclusion *)
Definition two_goroutines (a b : list call) : sconfig := sstart (Globals [] []) (fun _ => empty_message) (fun i => match i with O => a | S O => b | _ => [] end).
Lemma by_check (P : sconfig -> bool) sched c0 : match srun sched c0 with Some c => P c | None => false end = true -> exists c, srun sched c0 = Some c /\ P c = true.
Proof. destruct (srun sched c0) as [c|]; [|discriminate]. intros H. exists c. auto. Qed.
(* the first goroutine is interrupted inside set, after its test of the name: the other one writes currentid, and the assignment panics *)
Theorem builders_statement_race_panics_refuted : exists sched c,
  srun sched (two_goroutines [SetParameter (lit "a") (lit "x") (lit "1")] [SetParameter (lit "b") (lit "y") (lit "2")]) = Some c /\ st_pc (snd c 0%nat) = SPanic.
Proof.
  exists (repeat 0 1100 ++ repeat 1 564 ++ repeat 0 41)%nat.
  destruct (by_check (fun c => match st_pc (snd c 0%nat) with SPanic => true | _ => false end) (repeat 0 1100 ++ repeat 1 564 ++ repeat 0 41)%nat
    (two_goroutines [SetParameter (lit "a") (lit "x") (lit "1")] [SetParameter (lit "b") (lit "y") (lit "2")])) as [c [E H]]; [vm_compute; reflexivity|].
  exists c. split; [exact E|]. destruct (st_pc (snd c 0%nat)); try discriminate H. reflexivity.
Qed.
(* inside the last set: the value is stored under the name given by the other goroutine *)
Theorem builders_statement_race_mixes_refuted : exists sched c m,
  srun sched (two_goroutines [SetParameter (lit "a") (lit "x") (lit "1")] [SetParameter (lit "a") (lit "y") (lit "2")]) = Some c
  /\ snd c 0%nat = SThread (SIdle m) [] /\ mget (elem_contents m (lit "a")) (lit "x") = Some [] /\ mget (elem_contents m (lit "a")) (lit "y") = Some (lit "1").
Proof.
  exists (repeat 0 1700 ++ repeat 1 1160 ++ repeat 0 103)%nat.
  destruct (by_check (fun c => match snd c 0%nat with
      | SThread (SIdle m) [] => match mget (elem_contents m (lit "a")) (lit "x"), mget (elem_contents m (lit "a")) (lit "y") with Some u, Some w => bseqb u [] && bseqb w (lit "1") | _, _ => false end
      | _ => false end) (repeat 0 1700 ++ repeat 1 1160 ++ repeat 0 103)%nat
    (two_goroutines [SetParameter (lit "a") (lit "x") (lit "1")] [SetParameter (lit "a") (lit "y") (lit "2")])) as [c [E H]]; [vm_compute; reflexivity|].
  exists c. destruct (snd c 0%nat) as [[m| | | |] [|? ?]]; try discriminate H. exists m. split; [exact E|]. split; [reflexivity|].
  destruct (mget (elem_contents m (lit "a")) (lit "x")) as [u|]; [|discriminate H]. destruct (mget (elem_contents m (lit "a")) (lit "y")) as [w|]; [|discriminate H].
  apply andb_true_iff in H as [H1 H2]. apply bseqb_eq in H1, H2. subst. split; reflexivity.
Qed.
(* the hypotheses are met: the second goroutine works while the first one is inside SetParameter *)
Example builders_statement_level_ex :
  let css i := match i with O => [SetParameter (lit "a") (lit "x") (lit "1")] | S O => [SetHostname (lit "h"); SetElementID (lit "e")] | _ => [] end in
  let sched := (repeat 0 1100 ++ repeat 1 300 ++ repeat 0 600)%nat in
  one_at_a_time sched (sstart (Globals [] []) (fun _ => empty_message) css)
  /\ exists c, srun sched (sstart (Globals [] []) (fun _ => empty_message) css) = Some c /\ in_param (snd c 0%nat) = true /\ exists d s ks nx, st_pc (snd c 1%nat) = SSet APlain d s ks nx.
Proof.
  cbv zeta. split.
  - apply (one_parameter_user_start 0%nat). intros [|[|i]] H; [congruence| |constructor]. constructor; [exact I|]. constructor; [exact I|constructor].
  - match goal with |- exists c, srun ?a ?b = _ /\ _ =>
      destruct (by_check (fun c => in_param (snd c 0%nat) && match st_pc (snd c 1%nat) with SSet APlain _ _ _ _ => true | _ => false end) a b) as [c [E H]]; [vm_compute; reflexivity|] end.
    exists c. split; [exact E|]. apply andb_true_iff in H as [H1 H2]. split; [exact H1|]. destruct (st_pc (snd c 1%nat)) as [|[] d s ks nx| | |]; try discriminate H2. do 4 eexists. reflexivity.
Qed.
