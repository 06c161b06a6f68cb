(* C60, C61: creation, options, HasBestEffort, Err. *)
From Verif Require Import Bytes GoTime Cal Common MApi SpecApi.
From Verif Require M5424Def M5424 M3164Def M3164 Ref5424c Ref3164 Err5424 Err3164 Thm5424 Thm3164 Grammar5424 Grammar3164.
Local Open Scope Z_scope.

(* the machine inside, as far as the answers depend on it *)
Definition kind_of (s : smachine) : kind := match s with M5 _ => KMachine5424 | P5 _ => KParser5424 | M3 _ => KMachine3164 | P3 _ => KParser3164 end.
Definition has (os : list (Z * mopt)) (s : smachine) : Prop :=
  match s with
  | M5 m | P5 m => M5424.bestEffort m = wants_best os /\ Ref5424c.compliant m = wants_compliant os
  | M3 m | P3 m => M3164.bestEffort m = wants_best os /\ M3164.config_of m = wants_config os
  end.
Lemma existsb_snoc {A} (f : A -> bool) l x : existsb f (l ++ [x]) = existsb f l || f x.
Proof. rewrite existsb_app. cbn [existsb]. rewrite orb_false_r. reflexivity. Qed.
Lemma last_of_app {A} (f : Z * mopt -> option A) l l' : forall d, last_of f (l ++ l') d = last_of f l' (last_of f l d).
Proof. induction l as [|x l IH]; intros d; [reflexivity|]. cbn [app last_of]. apply IH. Qed.
Lemma config_eq a b c d a' b' c' d' : a = a' -> b = b' -> c = c' -> d = d' -> M3164Def.Config a b c d = M3164Def.Config a' b' c' d'.
Proof. congruence. Qed.
Lemma wants_config_snoc os x : wants_config (os ++ [x]) =
  M3164Def.Config (match year_asked x with Some y => y | None => last_of year_asked os 0 end) (wants_rfc3339 os || (match snd x with WithRFC3339 => true | _ => false end))
    (match zone_asked x with Some y => y | None => last_of zone_asked os None end) (match locale_asked x with Some y => y | None => last_of locale_asked os None end).
Proof. unfold wants_config, wants_rfc3339. rewrite existsb_snoc, !last_of_app. reflexivity. Qed.

Lemma with_best_has os now o s : has os s -> (o = WithBestEffort5424 \/ o = WithBestEffort3164) -> has (os ++ [(now, o)]) (with_best s).
Proof.
  intros H Ho. destruct s as [m|m|m|m]; cbn [has with_best best5 best3 M5424.bestEffort M3164.bestEffort] in *; destruct H as [H1 H2];
  (split; [unfold wants_best; rewrite existsb_snoc; destruct Ho as [-> | ->]; rewrite orb_true_r; reflexivity|]).
  1-2: unfold wants_compliant; rewrite existsb_snoc; destruct Ho as [-> | ->]; rewrite orb_false_r; exact H2.
  all: rewrite wants_config_snoc; destruct Ho as [-> | ->]; rewrite orb_false_r; exact H2.
Qed.
Lemma apply_opt_has os now o s : has os s -> match apply_opt now o s with
  | Some s' => applies (kind_of s) o = true /\ kind_of s' = kind_of s /\ has (os ++ [(now, o)]) s'
  | None => applies (kind_of s) o = false end.
Proof.
  intros H.
  assert (Hb : (o = WithBestEffort5424 \/ o = WithBestEffort3164) -> applies (kind_of s) o = true /\ kind_of (with_best s) = kind_of s /\ has (os ++ [(now, o)]) (with_best s)).
  { intros Ho. split; [destruct Ho as [-> | ->]; reflexivity|]. split; [destruct s; reflexivity|]. apply with_best_has; assumption. }
  destruct o as [| | |op|l|l|]; cbn [apply_opt]; auto; destruct s as [m|m|m|m]; cbn [kind_of applies]; try reflexivity; try (destruct op; reflexivity).
  - split; [reflexivity|]. split; [reflexivity|]. destruct H as [H1 H2]. split.
    + unfold wants_best. rewrite existsb_snoc, orb_false_r. exact H1.
    + unfold wants_compliant. rewrite existsb_snoc, orb_true_r. reflexivity.
  - destruct op; cbn [operate]; auto; (split; [reflexivity|]; split; [reflexivity|]; destruct H as [H1 H2]; split; [unfold wants_best; rewrite existsb_snoc, orb_false_r; exact H1|]);
    unfold M3164.config_of in *; cbn [set_cfg M3164.mv]; rewrite wants_config_snoc, orb_false_r; cbn [M3164Def.set_m_cfg M3164Def.m_cfg]; rewrite H2; reflexivity.
  - split; [reflexivity|]; split; [reflexivity|]; destruct H as [H1 H2]; split; [unfold wants_best; rewrite existsb_snoc, orb_false_r; exact H1|].
    unfold M3164.config_of in *; cbn [set_cfg M3164.mv]; rewrite wants_config_snoc, orb_false_r; cbn [M3164Def.set_m_cfg M3164Def.m_cfg]; rewrite H2; reflexivity.
  - split; [reflexivity|]; split; [reflexivity|]; destruct H as [H1 H2]; split; [unfold wants_best; rewrite existsb_snoc, orb_false_r; exact H1|].
    unfold M3164.config_of in *; cbn [set_cfg M3164.mv]; rewrite wants_config_snoc, orb_false_r; cbn [M3164Def.set_m_cfg M3164Def.m_cfg]; rewrite H2; reflexivity.
  - split; [reflexivity|]; split; [reflexivity|]; destruct H as [H1 H2]; split; [unfold wants_best; rewrite existsb_snoc, orb_false_r; exact H1|].
    unfold M3164.config_of in *; cbn [set_cfg M3164.mv]; rewrite wants_config_snoc, orb_true_r; cbn [M3164Def.set_m_cfg M3164Def.m_cfg]; rewrite H2; reflexivity.
Qed.
Lemma apply_opts_has opts : forall os s, has os s -> match apply_opts opts s with
  | Some s' => Forall (fun x => applies (kind_of s) (snd x) = true) opts /\ kind_of s' = kind_of s /\ has (os ++ opts) s'
  | None => ~ Forall (fun x => applies (kind_of s) (snd x) = true) opts end.
Proof.
  induction opts as [|[now o] r IH]; intros os s H; cbn [apply_opts].
  - rewrite app_nil_r. auto.
  - pose proof (apply_opt_has os now o s H) as Ha. destruct (apply_opt now o s) as [s1|].
    + destruct Ha as [A1 [A2 A3]]. specialize (IH _ _ A3). rewrite <- app_assoc in IH. rewrite A2 in IH. destruct (apply_opts r s1) as [s2|].
      * destruct IH as [B1 [B2 B3]]. split; [constructor; auto|]. split; auto.
      * intros HF. inversion HF; subst. contradiction.
    + intros HF. inversion HF; subst. cbn [snd] in *. congruence.
Qed.
Lemma new_has k opts : match new k opts with
  | Some s => Forall (fun x => applies (machine_of k) (snd x) = true) opts /\ kind_of s = k /\ has opts s
  | None => ~ Forall (fun x => applies (machine_of k) (snd x) = true) opts end.
Proof.
  assert (H5 : has [] (M5 (M5424.new_machine false false))) by (split; reflexivity).
  assert (H3 : has [] (M3 (M3164.new_machine false M3164.plain))) by (split; reflexivity).
  pose proof (apply_opts_has opts _ _ H5) as A5. pose proof (apply_opts_has opts _ _ H3) as A3.
  destruct k; cbn [new machine_of]; [exact A5| |exact A3|].
  - destruct (apply_opts opts (M5 _)) as [s|]; [|exact A5]. destruct A5 as [B1 [B2 B3]]. destruct s as [m|m|m|m]; try discriminate B2. auto.
  - destruct (apply_opts opts (M3 _)) as [s|]; [|exact A3]. destruct A3 as [B1 [B2 B3]]. destruct s as [m|m|m|m]; try discriminate B2. auto.
Qed.

Lemma parser_state5 m data : fst (M5424.parser_parse m data) = fst (M5424.parse m data).
Proof. unfold M5424.parser_parse. destruct (M5424.parse m data) as [m' [r [e|]| |]]; reflexivity. Qed.
Lemma parser_state3 m data : fst (M3164.parser_parse m data) = fst (M3164.parse m data).
Proof. unfold M3164.parser_parse. destruct (M3164.parse m data) as [m' [r [e|]| |]]; reflexivity. Qed.
Lemma parser_snd5 m m' data : M5424.bestEffort m = M5424.bestEffort m' -> snd (M5424.parse m data) = snd (M5424.parse m' data) -> snd (M5424.parser_parse m data) = snd (M5424.parser_parse m' data).
Proof.
  intros Hb. unfold M5424.parser_parse. destruct (M5424.parse m data) as [a [r e| |]], (M5424.parse m' data) as [a' [r' e'| |]]; cbn [snd]; intros H; try discriminate H.
  - injection H as <- <-. destruct e; cbn [snd]; rewrite ?Hb; reflexivity.
  - reflexivity.
  - reflexivity.
Qed.
Lemma parser_snd3 m m' data : M3164.bestEffort m = M3164.bestEffort m' -> snd (M3164.parse m data) = snd (M3164.parse m' data) -> snd (M3164.parser_parse m data) = snd (M3164.parser_parse m' data).
Proof.
  intros Hb. unfold M3164.parser_parse. destruct (M3164.parse m data) as [a [r e| |]], (M3164.parse m' data) as [a' [r' e'| |]]; cbn [snd]; intros H; try discriminate H.
  - injection H as <- <-. destruct e; cbn [snd]; rewrite ?Hb; reflexivity.
  - reflexivity.
  - reflexivity.
Qed.
Lemma do_call_has os s c : has os s -> let s' := fst (do_call s c) in kind_of s' = kind_of s /\ has (os ++ in_force (kind_of s) [c]) s'.
Proof.
  intros H. destruct c as [data| | | |now o]; cbn [do_call in_force flat_map]; rewrite ?app_nil_r.
  - destruct s as [m|m|m|m]; cbn [fst kind_of]; (split; [reflexivity|]); rewrite ?parser_state5, ?parser_state3; cbn [has] in *.
    + destruct (Ref5424c.parse_spec m data) as [_ [E1 E2]]. rewrite E1, E2. exact H.
    + destruct (Ref5424c.parse_spec m data) as [_ [E1 E2]]. rewrite E1, E2. exact H.
    + destruct (Ref3164.parse_spec m data) as [_ [E1 E2]]. rewrite E1, E2. exact H.
    + destruct (Ref3164.parse_spec m data) as [_ [E1 E2]]. rewrite E1, E2. exact H.
  - auto.
  - auto.
  - cbn [fst]. split; [destruct s; reflexivity|]. apply with_best_has; auto.
  - pose proof (apply_opt_has os now o s H) as Ha. destruct (apply_opt now o s) as [s1|]; cbn [fst].
    + destruct Ha as [-> [A2 A3]]. auto.
    + rewrite Ha, app_nil_r. auto.
Qed.
Lemma calls_app s h h' : fst (calls s (h ++ h')) = fst (calls (fst (calls s h)) h').
Proof.
  revert s. induction h as [|c h IH]; intros s; [reflexivity|]. cbn [app calls]. destruct (do_call s c) as [s1 a]. specialize (IH s1).
  destruct (calls s1 (h ++ h')) as [s2 r], (calls s1 h) as [s3 r']. exact IH.
Qed.
Lemma calls_cons s c h : fst (calls s (c :: h)) = fst (calls (fst (do_call s c)) h).
Proof. cbn [calls]. destruct (do_call s c) as [s1 a]. cbn [fst]. destruct (calls s1 h) as [s2 r]. reflexivity. Qed.
Lemma in_force_cons k c h : in_force k (c :: h) = in_force k [c] ++ in_force k h.
Proof. unfold in_force. cbn [flat_map]. rewrite app_nil_r. reflexivity. Qed.
Lemma calls_has h : forall os s, has os s -> let s' := fst (calls s h) in kind_of s' = kind_of s /\ has (os ++ in_force (kind_of s) h) s'.
Proof.
  induction h as [|c h IH]; intros os s H; [cbn; rewrite app_nil_r; auto|]. rewrite calls_cons, in_force_cons.
  destruct (do_call_has os s c H) as [E1 E2]. destruct (IH _ _ E2) as [E3 E4]. cbn zeta. rewrite app_assoc. rewrite E3, E1. split; [reflexivity|]. rewrite E1 in E4. exact E4.
Qed.
Lemma state_after k opts s h : new k opts = Some s -> kind_of (fst (calls s h)) = k /\ has (opts ++ in_force k h) (fst (calls s h)).
Proof. intros E. pose proof (new_has k opts) as H. rewrite E in H. destruct H as [_ [<- H]]. apply (calls_has h) in H. exact H. Qed.

(* ---------- C60 ---------- *)
(* creation panics exactly if an option is applied to a machine of the other package, or WithYear(nil) *)
Theorem new_iff k opts : (exists s, new k opts = Some s) <-> Forall (fun x => applies (machine_of k) (snd x) = true) opts.
Proof.
  pose proof (new_has k opts) as H. destruct (new k opts) as [s|]; [|split; [intros [s E]; discriminate|contradiction]].
  split; [intros _; apply H|intros _; eauto].
Qed.
(* the answers depend on the options in force alone, not on what was parsed before or on the order of the calls *)
Theorem api_parse k opts s h data : new k opts = Some s -> answer_after s h (Parse data) = parse_answer k (opts ++ in_force k h) data.
Proof.
  intros E. destruct (state_after k opts s h E) as [Hk H]. unfold answer_after. destruct (fst (calls s h)) as [m|m|m|m]; cbn [kind_of] in Hk; subst k; cbn [do_call snd parse_answer has] in *; destruct H as [H1 H2]; f_equal.
  - apply Thm5424.parse_independent; [exact H1|exact H2].
  - apply parser_snd5; [exact H1|]. apply Thm5424.parse_independent; [exact H1|exact H2].
  - apply Thm3164.parse3164_independent; [exact H1|exact H2].
  - apply parser_snd3; [exact H1|]. apply Thm3164.parse3164_independent; [exact H1|exact H2].
Qed.
Theorem api_has_best_effort k opts s h : new k opts = Some s -> answer_after s h HasBestEffort = Flag (wants_best (opts ++ in_force k h)).
Proof. intros E. destruct (state_after k opts s h E) as [Hk H]. unfold answer_after. destruct (fst (calls s h)) as [m|m|m|m]; cbn [do_call snd has] in *; f_equal; apply H. Qed.
Theorem api_apply k opts s h now o : new k opts = Some s -> answer_after s h (Apply now o) = if applies k o then Done else Panicked.
Proof.
  intros E. destruct (state_after k opts s h E) as [Hk H]. unfold answer_after. cbn [do_call]. pose proof (apply_opt_has _ now o _ H) as Ha. rewrite Hk in Ha.
  destruct (apply_opt now o (fst (calls s h))) as [s1|]; [destruct Ha as [-> _]|rewrite Ha]; reflexivity.
Qed.

(* Err *)
Definition err_answer (s : smachine) : answer := snd (do_call s Err).
Lemma err_kept s c : is_parse c = false -> err_answer (fst (do_call s c)) = err_answer s.
Proof.
  destruct c as [data| | | |now o]; intros H; try discriminate H; try reflexivity; cbn [do_call].
  - destruct s; reflexivity.
  - destruct o as [| | |op|l|l|]; destruct s; cbn [apply_opt]; try reflexivity. destruct (operate now op); reflexivity.
Qed.
Lemma err_kept_all h : forall s, forallb (fun c => negb (is_parse c)) h = true -> err_answer (fst (calls s h)) = err_answer s.
Proof.
  induction h as [|c h IH]; intros s H; [reflexivity|]. cbn [forallb] in H. apply andb_true_iff in H as [H1 H2]. apply negb_true_iff in H1.
  rewrite calls_cons, IH by exact H2. apply err_kept, H1.
Qed.
Lemma err_parse s data : err_answer (fst (do_call s (Parse data))) = error_of (snd (do_call s (Parse data))).
Proof.
  destruct s as [m|m|m|m]; cbn [do_call fst snd]; unfold err_answer; cbn [do_call snd error_of]; rewrite ?parser_state5, ?parser_state3.
  - pose proof (Err5424.parse_err m data) as H. destruct (snd (M5424.parse m data)); [rewrite H; reflexivity|destruct H..].
  - pose proof (Err5424.parse_err m data) as H. unfold M5424.parser_parse. destruct (M5424.parse m data) as [m' [r [e|]| |]]; cbn [fst snd] in *; [destruct (M5424.bestEffort m); rewrite H; reflexivity|rewrite H; reflexivity|destruct H..].
  - pose proof (Err3164.parse_err m data) as H. destruct (snd (M3164.parse m data)); [rewrite H; reflexivity|destruct H..].
  - pose proof (Err3164.parse_err m data) as H. unfold M3164.parser_parse. destruct (M3164.parse m data) as [m' [r [e|]| |]]; cbn [fst snd] in *; [destruct (M3164.bestEffort m); rewrite H; reflexivity|rewrite H; reflexivity|destruct H..].
Qed.
(* the error of the last call of Parse, whatever else was called since *)
Theorem api_err_last s h data h' : forallb (fun c => negb (is_parse c)) h' = true ->
  answer_after s (h ++ Parse data :: h') Err = error_of (answer_after s h (Parse data)).
Proof.
  intros H. unfold answer_after. rewrite calls_app, calls_cons. fold (err_answer (fst (calls (fst (do_call (fst (calls s h)) (Parse data))) h'))).
  rewrite err_kept_all by exact H. apply err_parse.
Qed.
Lemma apply_opts_err opts : forall s s', apply_opts opts s = Some s' -> err_answer s' = err_answer s.
Proof.
  induction opts as [|[now o] r IH]; intros s s' E; cbn [apply_opts] in E; [injection E as <-; reflexivity|]. destruct (apply_opt now o s) as [s1|] eqn:E1; [|discriminate].
  rewrite (IH _ _ E). pose proof (err_kept s (Apply now o) eq_refl) as H. cbn [do_call] in H. rewrite E1 in H. exact H.
Qed.
(* nil before the first call of Parse *)
Theorem api_err_initial k opts s h : new k opts = Some s -> forallb (fun c => negb (is_parse c)) h = true -> answer_after s h Err = no_error k.
Proof.
  intros E H. unfold answer_after. fold (err_answer (fst (calls s h))). rewrite err_kept_all by exact H.
  destruct k; cbn [new no_error] in *.
  - apply apply_opts_err in E. exact E.
  - destruct (apply_opts opts _) as [[m|m|m|m]|] eqn:E1; try discriminate E. injection E as <-. apply apply_opts_err in E1. exact E1.
  - apply apply_opts_err in E. exact E.
  - destruct (apply_opts opts _) as [[m|m|m|m]|] eqn:E1; try discriminate E. injection E as <-. apply apply_opts_err in E1. exact E1.
Qed.

(* options that ask for the same things give the same answers: for the flags only their presence counts, for the year and
   the zones the last one *)
Definition flag_option (o : mopt) : bool := match o with WithYear _ | WithTimezone _ | WithLocaleTimezone _ => false | _ => true end.
Lemma existsb_same {A} (f : A -> bool) l l' : (forall x, In x l <-> In x l') -> existsb f l = existsb f l'.
Proof.
  intros H. apply eq_true_iff_eq. rewrite !existsb_exists. split; intros [x [H1 H2]]; exists x; split; auto; apply H; exact H1.
Qed.
Lemma last_of_none {A} (f : Z * mopt -> option A) os : Forall (fun x => f x = None) os -> forall d, last_of f os d = d.
Proof. induction 1 as [|x os Hx _ IH]; intros d; [reflexivity|]. cbn [last_of]. rewrite Hx. apply IH. Qed.
(* the order and the repetition of the options without argument does not matter *)
Theorem api_flags_order k opts opts' s s' h data : Forall (fun x => flag_option (snd x) = true) opts -> (forall x, In x opts <-> In x opts') ->
  new k opts = Some s -> new k opts' = Some s' -> answer_after s h (Parse data) = answer_after s' h (Parse data).
Proof.
  intros Hf Hi E E'. rewrite (api_parse _ _ _ _ _ E), (api_parse _ _ _ _ _ E').
  assert (Hb : forall f : Z * mopt -> bool, existsb f (opts ++ in_force k h) = existsb f (opts' ++ in_force k h)).
  { intros f. rewrite !existsb_app. f_equal. apply existsb_same, Hi. }
  assert (Hl : forall A (f : Z * mopt -> option A) d, (forall x, flag_option (snd x) = true -> f x = None) -> last_of f (opts ++ in_force k h) d = last_of f (opts' ++ in_force k h) d).
  { intros A f d H. rewrite !last_of_app. f_equal. rewrite !last_of_none; [reflexivity| |].
    - apply Forall_forall. intros x Hx. apply H. apply Hi in Hx. apply (proj1 (Forall_forall _ _) Hf x Hx).
    - eapply Forall_impl; [|exact Hf]. exact H. }
  assert (Hc : wants_config (opts ++ in_force k h) = wants_config (opts' ++ in_force k h)).
  { unfold wants_config, wants_rfc3339. apply config_eq; [|apply Hb|..]; apply Hl; intros [n []]; cbn; intros H; congruence. }
  destruct k; cbn [parse_answer]; unfold wants_best, wants_compliant in *; rewrite ?Hb, ?Hc; reflexivity.
Qed.
(* ... and with arguments, the last of a sort counts *)
Theorem api_last_counts k pre x mid y post s s' h data : 
  (exists o o', snd x = WithYear o /\ snd y = WithYear o') \/ (exists l l', snd x = WithTimezone l /\ snd y = WithTimezone l') \/ (exists l l', snd x = WithLocaleTimezone l /\ snd y = WithLocaleTimezone l') ->
  new k (pre ++ x :: mid ++ y :: post) = Some s -> new k (pre ++ mid ++ y :: post) = Some s' -> answer_after s h (Parse data) = answer_after s' h (Parse data).
Proof.
  intros Hs E E'. rewrite (api_parse _ _ _ _ _ E), (api_parse _ _ _ _ _ E').
  assert (Hy : applies (machine_of k) (snd y) = true).
  { pose proof (proj1 (new_iff _ _) (ex_intro _ s E)) as H. rewrite Forall_app in H. destruct H as [_ H]. inversion H as [|? ? _ H']; subst. rewrite Forall_app in H'. destruct H' as [_ H']. inversion H'; assumption. }
  assert (Hb : forall f : Z * mopt -> bool, f x = false -> existsb f ((pre ++ x :: mid ++ y :: post) ++ in_force k h) = existsb f ((pre ++ mid ++ y :: post) ++ in_force k h)).
  { intros f Hf. rewrite !existsb_app. cbn [existsb]. rewrite Hf. cbn [orb]. rewrite !existsb_app. cbn [existsb]. reflexivity. }
  assert (Hl : forall A (f : Z * mopt -> option A) d, f x = None \/ (exists a, f y = Some a) -> last_of f ((pre ++ x :: mid ++ y :: post) ++ in_force k h) d = last_of f ((pre ++ mid ++ y :: post) ++ in_force k h) d).
  { intros A f d H. rewrite !last_of_app. f_equal. cbn [last_of]. rewrite !last_of_app. cbn [last_of]. destruct H as [-> |[a ->]]; reflexivity. }
  assert (Hc : wants_config ((pre ++ x :: mid ++ y :: post) ++ in_force k h) = wants_config ((pre ++ mid ++ y :: post) ++ in_force k h)).
  { destruct x as [nx ox], y as [ny oy]. cbn [snd] in *. unfold wants_config, wants_rfc3339.
    destruct Hs as [[o [o' [-> ->]]]|[[l [l' [-> ->]]]|[l [l' [-> ->]]]]]; (apply config_eq; [|apply Hb; reflexivity|..]; apply Hl; try (left; reflexivity); right; try (eexists; reflexivity)).
    destruct o' as [yy| |yy|]; try (eexists; reflexivity). destruct k; discriminate Hy. }
  assert (Hx : wants_best ((pre ++ x :: mid ++ y :: post) ++ in_force k h) = wants_best ((pre ++ mid ++ y :: post) ++ in_force k h) /\ wants_compliant ((pre ++ x :: mid ++ y :: post) ++ in_force k h) = wants_compliant ((pre ++ mid ++ y :: post) ++ in_force k h)).
  { split; apply Hb; destruct x as [nx ox]; cbn [snd] in *; destruct Hs as [[o [o' [-> _]]]|[[l [l' [-> _]]]|[l [l' [-> _]]]]]; reflexivity. }
  destruct Hx as [Hx1 Hx2]. destruct k; cbn [parse_answer]; rewrite Hx1, ?Hx2, ?Hc; reflexivity.
Qed.

(* "If the result is nil, then the line was parsed successfully" (doc of Err): true for RFC 5424 *)
Theorem err5424_nil_iff_parsed k opts s h data h' : (k = KMachine5424 \/ k = KParser5424) -> new k opts = Some s -> forallb (fun c => negb (is_parse c)) h' = true ->
  (answer_after s (h ++ Parse data :: h') Err = Err5 None <-> exists msg, Grammar5424.grammar (wants_compliant (opts ++ in_force k h)) data msg).
Proof.
  intros Hk E H. rewrite (api_err_last s h data h' H), (api_parse _ _ _ _ _ E). set (os := opts ++ in_force k h).
  set (m := M5424.new_machine (wants_best os) (wants_compliant os)). change (wants_compliant os) with (Ref5424c.compliant m). rewrite <- (Thm5424.parse_no_error_iff_grammar m data).
  assert (H2 : error_of (Ret5 (snd (M5424.parse m data))) = Err5 None <-> exists r, snd (M5424.parse m data) = M5424.Ret r None).
  { destruct (snd (M5424.parse m data)) as [r e| |]; cbn [error_of]; split; intros Hx; try discriminate Hx; try (destruct Hx as [r' Hx]; discriminate Hx).
    - injection Hx as ->. eauto.
    - destruct Hx as [r' Hx]. injection Hx as _ ->. reflexivity. }
  destruct Hk as [-> | ->]; cbn [parse_answer]; fold m; [exact H2|]. rewrite <- H2. unfold M5424.parser_parse.
  destruct (M5424.parse m data) as [m' [r [e|]| |]]; cbn [snd]; try reflexivity. destruct (M5424.bestEffort m); reflexivity.
Qed.
(* ... false for RFC 3164: Err is nil, and so is the message *)
Theorem err3164_nil_parsed_refuted : exists s data, new KParser3164 [] = Some s
  /\ answer_after s [] (Parse data) = Ret3 (M3164.Ret None None) /\ answer_after s [Parse data] Err = Err3 None
  /\ forall msg, ~ Grammar3164.grammar M3164.plain data msg.
Proof.
  eexists _, (lit "<34>Oct 11 22:14:15"). split; [reflexivity|]. split; [vm_compute; reflexivity|]. split; [vm_compute; reflexivity|].
  intros msg Hg. apply (Thm3164.parse3164_grammar_accepted (M3164.new_machine false M3164.plain)) in Hg. vm_compute in Hg. discriminate Hg.
Qed.
(* the error is the one of the last input, also after a success *)
Example api_err_ex : exists s, new KParser5424 [(2024, WithBestEffort5424); (2024, WithCompliantMsg)] = Some s
  /\ answer_after s [Parse (lit "<3>1 - - - - - -x"); HasBestEffort] Err = Err5 (Some (M5424Def.PErr M5424Def.EParse 16))
  /\ answer_after s [Parse (lit "<3>1 - - - - - -x"); Parse (lit "<3>1 - - - - - - x")] Err = Err5 None
  /\ answer_after s [] HasBestEffort = Flag true /\ answer_after s [] (Apply 2024 WithCompliantMsg) = Panicked.
Proof. eexists. split; [reflexivity|]. repeat split; vm_compute; reflexivity. Qed.
Example api_new_ex : new KParser5424 [(2024, WithYear CurrentYear)] = None /\ new KMachine3164 [(2024, WithCompliantMsg)] = None /\ new KParser3164 [(2024, WithYear YNil)] = None
  /\ exists s, new KParser3164 [(2024, WithBestEffort5424)] = Some s.
Proof. repeat split. eexists. reflexivity. Qed.

(* ---------- C61 ---------- *)
(* the year of WithYear(CurrentYear) is the one the clock showed when the option was applied, i.e. when the parser was
   created: it dates every message that is ever parsed with the parser *)
Theorem current_year_fixed k pre now post s h data msg e pri v ts p host tail :
  (k = KMachine3164 \/ k = KParser3164) ->
  new k (pre ++ (now, WithYear CurrentYear) :: post) = Some s ->
  Forall (fun x => match snd x with WithYear _ | WithTimezone _ | WithLocaleTimezone _ => False | _ => True end) (pre ++ post ++ in_force k h) ->
  Grammar3164.stamp_text ts p -> Grammar5424.pri_text pri v -> Grammar5424.word 255 host ->
  data = lit "<" ++ pri ++ lit ">" ++ ts ++ lit " " ++ host ++ lit " " ++ tail ->
  answer_after s h (Parse data) = Ret3 (M3164.Ret (Some msg) e) ->
  (sp_day p <= Grammar5424.month_length (sp_month p) now -> M3164.timestamp msg = Some (Time now (sp_month p) (sp_day p) (sp_hour p) (sp_min p) (sp_sec p) 0 0))
  /\ (Grammar5424.month_length (sp_month p) now < sp_day p -> sp_month p = 2 /\ sp_day p = 29 /\ M3164.timestamp msg = Some (Time now 3 1 (sp_hour p) (sp_min p) (sp_sec p) 0 0)).
Proof.
  intros Hk E Hn Hs Hp Hw Hd Ha. rewrite (api_parse _ _ _ _ _ E) in Ha. set (os := (pre ++ (now, WithYear CurrentYear) :: post) ++ in_force k h) in *.
  assert (HN : forall A (f : Z * mopt -> option A), (forall x, match snd x with WithYear _ | WithTimezone _ | WithLocaleTimezone _ => False | _ => True end -> f x = None) ->
     forall d, last_of f os d = match f (now, WithYear CurrentYear) with Some a => a | None => d end).
  { intros A f Hf d. subst os. rewrite !Forall_app in Hn. destruct Hn as [N1 [N2 N3]]. rewrite !last_of_app. cbn [last_of].
    rewrite (last_of_none f pre) by (eapply Forall_impl; [|exact N1]; exact Hf). rewrite (last_of_none f post) by (eapply Forall_impl; [|exact N2]; exact Hf).
    apply last_of_none. eapply Forall_impl; [|exact N3]. exact Hf. }
  assert (Hc : wants_config os = M3164Def.Config now (wants_rfc3339 os) None None).
  { unfold wants_config. apply config_eq; [|reflexivity|..]; rewrite HN; try reflexivity; intros [n []]; cbn; intros H; try contradiction; reflexivity. }
  set (m := M3164.new_machine (wants_best os) (wants_config os)).
  assert (Hret : exists e', snd (M3164.parse m data) = M3164.Ret (Some msg) e').
  { destruct Hk as [-> | ->]; cbn [parse_answer] in Ha; fold m in Ha; [injection Ha as Ha; eauto|]. unfold M3164.parser_parse in Ha.
    destruct (M3164.parse m data) as [m' [r [e'|]| |]]; cbn [snd] in *; try discriminate Ha; [destruct (M3164.bestEffort m); try discriminate Ha|]; injection Ha as -> <-; eauto. }
  destruct Hret as [e' Hr].
  assert (Hcm : M3164.config_of m = M3164Def.Config now (wants_rfc3339 os) None None) by exact Hc.
  destruct (Thm3164.year_option m ts p 0 pri v host tail data msg e' Hs Hd Hp Hw) as [Y1 Y2].
  - rewrite Hcm. left. split; reflexivity.
  - rewrite Hcm. reflexivity.
  - exact Hr.
  - rewrite Hcm in Y1, Y2. cbn [M3164Def.yyyy] in Y1, Y2. split; [exact Y1|]. intros H. destruct (Y2 H) as [A1 [A2 [_ A3]]]. auto.
Qed.
(* created in 2023, used in 2024 (the clock shows 2024 at every later call): the messages are dated 2023 *)
Theorem current_year_refuted : exists s msg, new KParser3164 [(2023, WithYear CurrentYear)] = Some s
  /\ answer_after s [Apply 2024 WithBestEffort3164] (Parse (lit "<34>Jan  2 22:14:15 h x")) = Ret3 (M3164.Ret (Some msg) None)
  /\ M3164.timestamp msg = Some (Time 2023 1 2 22 14 15 0 0).
Proof. eexists _, _. split; [reflexivity|]. split; vm_compute; reflexivity. Qed.
