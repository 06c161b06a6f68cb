(* Well-formed messages: the builder and the parser only make those, and printing them gives a text of the grammar. *)
From Coq Require Import Permutation.
From Verif Require Import Bytes GoMap GoTime Common CommonFacts GotoLang M5424Def A5424 M5424 Spec5424 Ref5424b Grammar5424 Utf8 Ts5424 Gram5424 Thm5424
  BuilderBaseDef ABuilder MBuilder RefBuilder BFmt.
Local Open Scope Z_scope.

(* ---- EscapeBytes ---- *)
(* EscapeBytes without the escaping: every character is replaced by the character whose code is the first byte of its encoding *)
Fixpoint mangle_loop (skip : nat) (l : bytes) : bytes :=
  match l with
  | [] => []
  | b :: r => match skip with S k => mangle_loop k r | O => encode (bN b) ++ mangle_loop (rune_rest b r) r end
  end.
Definition mangle (v : bytes) : bytes := mangle_loop 0 v.

Lemma string_of_byte_encode b : string_of_byte b = encode (bN b).
Proof.
  unfold string_of_byte, encode. pose proof (bN_lt b) as Hb. destruct (N.ltb_spec (bN b) 128) as [H|H].
  - rewrite byte_of_bN. reflexivity.
  - replace (bN b <? 2048)%N with true by (symmetry; apply N.ltb_lt; lia).
    unfold byte_of. destruct (Byte.of_N (192 + bN b / 64)) as [x|] eqn:E1.
    + destruct (Byte.of_N (128 + bN b mod 64)) as [y|] eqn:E2; [reflexivity|].
      apply Byte.of_N_None_iff in E2. pose proof (N.mod_lt (bN b) 64). lia.
    + apply Byte.of_N_None_iff in E1. assert (bN b / 64 < 4)%N by (apply N.div_lt_upper_bound; lia). lia.
Qed.
Lemma scalar_small c : (c < 256)%N -> scalar c. Proof. unfold scalar. lia. Qed.

Lemma escape_high c : (128 <= c)%N -> (c < 256)%N -> escape (encode c) = encode c.
Proof.
  intros H1 H2. apply escape_plain. destruct (encode_cases c (scalar_small c H2)) as [[H _]|[_ [b [t [i [-> [Hb [_ Ht]]]]]]]]; [lia|].
  constructor; [exact Hb|]. eapply utail_high. exact Ht.
Qed.
Lemma special_beqb b : ((bN b =? 92) || (bN b =? 93) || (bN b =? 34))%N = (beqb b """" || beqb b "\" || beqb b "]")%bool.
Proof.
  unfold beqb. change (bN """") with 34%N. change (bN "\") with 92%N. change (bN "]") with 93%N.
  destruct (bN b =? 34)%N, (bN b =? 92)%N, (bN b =? 93)%N; reflexivity.
Qed.
Lemma escape_byte b : escape (encode (bN b)) = (if ((bN b =? 92) || (bN b =? 93) || (bN b =? 34))%N then ["\"%byte] else []) ++ encode (bN b).
Proof.
  destruct (N.ltb_spec (bN b) 128) as [H|H].
  - assert (E : encode (bN b) = [b]) by (unfold encode; apply N.ltb_lt in H; rewrite H, byte_of_bN; reflexivity).
    rewrite E. cbn [escape]. rewrite special_beqb. destruct (beqb b """" || beqb b "\" || beqb b "]"); reflexivity.
  - rewrite escape_high by (try apply bN_lt; assumption).
    replace (bN b =? 92)%N with false by (symmetry; apply N.eqb_neq; lia). replace (bN b =? 93)%N with false by (symmetry; apply N.eqb_neq; lia).
    replace (bN b =? 34)%N with false by (symmetry; apply N.eqb_neq; lia). reflexivity.
Qed.
Lemma escape_loop_mangle l : forall k, escape_loop k l = escape (mangle_loop k l).
Proof.
  induction l as [|b r IH]; intros [|k]; cbn [escape_loop mangle_loop]; auto.
  rewrite IH, escape_app, escape_byte, string_of_byte_encode, <- app_assoc. reflexivity.
Qed.
Lemma escape_bytes_mangle v : escape_bytes v = escape (mangle v). Proof. apply escape_loop_mangle. Qed.
Lemma mangle_loop_utf8 l : forall k, utf8 (mangle_loop k l).
Proof.
  induction l as [|b r IH]; intros [|k]; cbn [mangle_loop]; auto; try constructor; auto. apply scalar_small, bN_lt.
Qed.
Lemma mangle_utf8 v : utf8 (mangle v). Proof. apply mangle_loop_utf8. Qed.

Lemma tail_len_utail t : forall i l, utail i t -> tail_len i (t ++ l) = length t.
Proof.
  induction t as [|b t IH]; intros i l H; [destruct H|]. cbn [utail] in H. cbn [app tail_len length].
  destruct (utf_tail i (bN b)) as [[j|]|]; [|subst t; reflexivity|destruct H]. rewrite (IH j l H).
  destruct t; [destruct H|reflexivity].
Qed.
Lemma mangle_skip t : forall l, mangle_loop (length t) (t ++ l) = mangle_loop 0 l.
Proof. induction t as [|b t IH]; intros l; [reflexivity|]. cbn [length app mangle_loop]. apply IH. Qed.
Definition first_byte (c : N) : byte := hd x00 (encode c).
Lemma utf_start_128 c : (c < 128)%N -> utf_start c = None.
Proof. intros H. unfold utf_start. rewrite !btw_false by lia. repeat (match goal with |- context[(c =? ?n)%N] => replace (c =? n)%N with false by (symmetry; apply N.eqb_neq; lia) end). reflexivity. Qed.
Lemma mangle_encode c l : scalar c -> mangle (encode c ++ l) = encode (bN (first_byte c)) ++ mangle l.
Proof.
  intros Hc. unfold first_byte, mangle. destruct (encode_cases c Hc) as [[H [-> E]]|[H [b [t [i [-> [Hb [Hi Ht]]]]]]]].
  - cbn [app mangle_loop hd]. unfold rune_rest. rewrite E, utf_start_128 by exact H. reflexivity.
  - cbn [app mangle_loop hd]. unfold rune_rest. rewrite Hi, (tail_len_utail t i l Ht), mangle_skip. reflexivity.
Qed.
Definition ascii_only (v : bytes) : Prop := Forall (fun b => (bN b < 128)%N) v.
Lemma mangle_ascii v : ascii_only v -> mangle v = v.
Proof.
  induction 1 as [|b l Hb H IH]; [reflexivity|]. unfold mangle in *. cbn [mangle_loop]. unfold rune_rest. rewrite utf_start_128 by exact Hb. rewrite IH.
  unfold encode. apply N.ltb_lt in Hb. rewrite Hb, byte_of_bN. reflexivity.
Qed.

(* ---- sorting ---- *)
Lemma ins_comm a b l : ins a (ins b l) = ins b (ins a l).
Proof.
  induction l as [|h r IH]; cbn [ins].
  - destruct (bcmp a b) eqn:E.
    + apply bcmp_eq in E. subst. rewrite bcmp_refl. reflexivity.
    + replace (bcmp b a) with Gt by (symmetry; apply bcmp_gt_lt; exact E). reflexivity.
    + apply bcmp_gt_lt in E. rewrite E. reflexivity.
  - assert (Htri : forall x y z, bcmp x y <> Gt -> bcmp y z <> Gt -> bcmp x z <> Gt).
    { intros x y z H1 H2. destruct (bcmp x y) eqn:E1; [apply bcmp_eq in E1; subst; exact H2| |congruence].
      destruct (bcmp y z) eqn:E2; [apply bcmp_eq in E2; subst; congruence| |congruence]. rewrite (bcmp_lt_trans _ _ _ E1 E2). congruence. }
    assert (Hle : forall x y z, bcmp x y <> Gt -> ins x (y :: z) = x :: y :: z) by (intros x y z H; cbn [ins]; destruct (bcmp x y); congruence).
    assert (Hgt : forall x y z, bcmp x y = Gt -> ins x (y :: z) = y :: ins x z) by (intros x y z H; cbn [ins]; rewrite H; reflexivity).
    assert (Hdec : forall x y, bcmp x y = Gt \/ bcmp x y <> Gt) by (intros x y; destruct (bcmp x y); auto; right; congruence).
    change (match bcmp b h with Gt => h :: ins b r | _ => b :: h :: r end) with (ins b (h :: r)).
    change (match bcmp a h with Gt => h :: ins a r | _ => a :: h :: r end) with (ins a (h :: r)).
    destruct (Hdec a h) as [Ha|Ha], (Hdec b h) as [Hb|Hb].
    + rewrite (Hgt b h r Hb), (Hgt a h r Ha), (Hgt a h _ Ha), (Hgt b h _ Hb), IH. reflexivity.
    + assert (Hab : bcmp a b = Gt). { destruct (Hdec a b) as [H|H]; [exact H|]. destruct (Htri a b h H Hb Ha). }
      rewrite (Hle b h r Hb), (Hgt a b _ Hab), (Hgt a h r Ha), (Hle b h _ Hb). reflexivity.
    + assert (Hba : bcmp b a = Gt). { destruct (Hdec b a) as [H|H]; [exact H|]. destruct (Htri b a h H Ha Hb). }
      rewrite (Hgt b h r Hb), (Hle a h _ Ha), (Hle a h r Ha), (Hgt b a _ Hba), (Hgt b h _ Hb). reflexivity.
    + rewrite (Hle b h r Hb), (Hle a h r Ha). destruct (bcmp a b) eqn:E.
      * apply bcmp_eq in E. subst. reflexivity.
      * rewrite (Hle a b) by congruence. rewrite (Hgt b a) by (apply bcmp_gt_lt; exact E). rewrite (Hle b h r Hb). reflexivity.
      * rewrite (Hgt a b) by exact E. rewrite (Hle a h r Ha). apply bcmp_gt_lt in E. rewrite (Hle b a) by congruence. reflexivity.
Qed.
Lemma sort_perm l l' : Permutation l l' -> sort_strings l = sort_strings l'.
Proof.
  induction 1 as [|x l l' H IH|x y l|l l' l'' H IH H' IH']; cbn; auto.
  - change (ins x (sort_strings l) = ins x (sort_strings l')). rewrite IH. reflexivity.
  - apply ins_comm.
  - congruence.
Qed.
Lemma sort_keys {V} (m : gmap V) : msorted m -> sort_strings (map fst m) = map fst m.
Proof.
  induction m as [|[k v] r IH]; intros H; [reflexivity|]. destruct H as [H1 H2]. cbn [map fst sort_strings fold_right].
  change (fold_right ins [] (map fst r)) with (sort_strings (map fst r)). rewrite (IH H2).
  destruct r as [|[k' v'] r']; [reflexivity|]. cbn [map fst ins]. rewrite (H1 k' v' (or_introl eq_refl)). reflexivity.
Qed.
Lemma sort_order {V} (it : order) w (m : gmap V) : is_order it -> msorted m -> sort_strings (it w (map fst m)) = map fst m.
Proof. intros Hit Hs. rewrite <- (sort_perm _ _ (Hit w (map fst m))). apply sort_keys. exact Hs. Qed.

(* ---- maps as lists ---- *)
Lemma mset_last {V} (m : gmap V) k v : (forall k' v', In (k', v') m -> bcmp k' k = Lt) -> mset m k v = m ++ [(k, v)].
Proof.
  induction m as [|[k' v'] r IH]; intros H; [reflexivity|]. cbn [mset app].
  replace (bcmp k k') with Gt by (symmetry; apply bcmp_gt_lt; apply (H k' v'); left; reflexivity).
  rewrite IH; [reflexivity|]. intros k2 v2 H2. apply (H k2 v2). right. exact H2.
Qed.
Lemma msorted_app {V} (a : gmap V) k v r : msorted (a ++ (k, v) :: r) -> (forall k' v', In (k', v') a -> bcmp k' k = Lt) /\ msorted ((a ++ [(k, v)]) ++ r).
Proof.
  intros H. split; [|rewrite <- app_assoc; exact H]. revert H. induction a as [|[k' v'] a IH]; intros H k2 v2 H2; [destruct H2|].
  cbn [app msorted] in H. destruct H as [H1 H3]. destruct H2 as [H2|H2].
  - injection H2 as <- <-. apply (H1 k v). apply in_or_app. right. left. reflexivity.
  - eapply IH; eauto.
Qed.
Lemma fold_mset {V} (l : gmap V) : forall acc, msorted (acc ++ l) -> fold_left (fun m kv => mset m (fst kv) (snd kv)) l acc = acc ++ l.
Proof.
  induction l as [|[k v] r IH]; intros acc H; [rewrite app_nil_r; reflexivity|]. cbn [fold_left fst snd].
  apply msorted_app in H as [H1 H2]. rewrite (mset_last acc k v H1), (IH _ H2), <- app_assoc. reflexivity.
Qed.
Definition mvals {V W} (f : V -> W) (m : gmap V) : gmap W := map (fun kv => (fst kv, f (snd kv))) m.
Lemma mvals_In {V W} (f : V -> W) m k w : In (k, w) (mvals f m) -> exists v, In (k, v) m /\ w = f v.
Proof. unfold mvals. rewrite in_map_iff. intros [[k' v] [E H]]. injection E as <- <-. eauto. Qed.
Lemma mvals_sorted {V W} (f : V -> W) m : msorted m -> msorted (mvals f m).
Proof.
  induction m as [|[k v] r IH]; cbn; [auto|]. intros [H1 H2]. split; [|auto].
  intros k' v' H. apply mvals_In in H as [v2 [H _]]. eauto.
Qed.

(* ---- well-formed messages ---- *)
Definition good_elem (e : gmap bytes) : Prop := msorted e /\ forall n v, In (n, v) e -> sdname n.
Definition good_sd (m : sdmap) : Prop := m <> [] /\ msorted m /\ forall id e, In (id, e) m -> sdname id /\ good_elem e.
Definition good_word (max : nat) (w : option bytes) : Prop := match w with None => True | Some w => word max w /\ w <> lit "-" end.
Definition good_pri (m : message) : Prop :=
  match priority m with
  | None => facility m = None /\ severity m = None
  | Some p => 0 <= p <= 191 /\ facility m = Some (p / 8) /\ severity m = Some (p mod 8) end.
Record wf (m : message) : Prop := Wf {
  wf_pri : good_pri m;
  wf_ver : 0 <= version m <= 999;
  wf_ts : forall t, timestamp m = Some t -> exists s, ts_text s t;
  wf_host : good_word 255 (hostname m); wf_app : good_word 48 (appname m); wf_proc : good_word 128 (procID m); wf_mid : good_word 32 (msgID m);
  wf_sd : forall s, structuredData m = Some s -> good_sd s;
  wf_msg : forall g, msg m = Some g -> g <> [] }.

(* the same message with mangled parameter values *)
Definition mangle_sd (m : sdmap) : sdmap := mvals (mvals mangle) m.
Definition mangle_msg (m : message) : message := set_structuredData (option_map mangle_sd (structuredData m)) m.

Definition elem_of_map (id : bytes) (e : gmap bytes) : elem := Elem id (map (fun nv => Param (fst nv) (escape_bytes (snd nv)) (mangle (snd nv))) e).
Definition elems_of_map (m : sdmap) : list elem := map (fun ie => elem_of_map (fst ie) (snd ie)) m.

Lemma concat_keys {V} (g : bytes -> V -> bytes) d (m : gmap V) : msorted m ->
  concat (map (fun k => g k (match mget m k with Some v => v | None => d end)) (map fst m)) = concat (map (fun kv => g (fst kv) (snd kv)) m).
Proof.
  intros Hs. f_equal. rewrite map_map. apply map_ext_in. intros [k v] Hin. cbn [fst snd]. rewrite (In_mget m k v Hs Hin). reflexivity.
Qed.
Lemma params_string_text it id e : is_order it -> good_elem e ->
  params_string it id e = concat (map param_text (e_params (elem_of_map id e))).
Proof.
  intros Hit [Hs _]. unfold params_string. rewrite sort_order by assumption.
  rewrite (concat_keys (fun n v => lit " " ++ n ++ lit "=""" ++ escape_bytes v ++ lit """") [] e Hs).
  unfold elem_of_map. cbn [e_params]. rewrite map_map. reflexivity.
Qed.
Lemma sd_string_text it m : is_order it -> good_sd m -> sd_string it m = concat (map elem_text (elems_of_map m)).
Proof.
  intros Hit [_ [Hs Hg]]. unfold sd_string. rewrite sort_order by assumption.
  rewrite (concat_keys (fun id e => lit "[" ++ id ++ params_string it id e ++ lit "]") [] m Hs).
  unfold elems_of_map. rewrite map_map. f_equal. apply map_ext_in. intros [id e] Hin. cbn [fst snd].
  rewrite (params_string_text it id e Hit) by (apply (Hg id e Hin)). reflexivity.
Qed.
Lemma elem_of_map_ok id e : sdname id -> good_elem e -> elem_ok (elem_of_map id e).
Proof.
  intros Hid [_ Hg]. split; [exact Hid|]. cbn [elem_of_map e_params]. apply Forall_forall. intros p Hp. apply in_map_iff in Hp as [[n v] [<- Hin]].
  split; cbn [p_name p_raw p_value fst snd]; [apply (Hg n v Hin)|]. rewrite escape_bytes_mangle. apply escape_pval, mangle_utf8.
Qed.
Lemma params_of_map e : msorted e -> params_map [] (map (fun nv : bytes * bytes => Param (fst nv) (escape_bytes (snd nv)) (mangle (snd nv))) e) = mvals mangle e.
Proof.
  intros Hs. pose proof (fold_mset (mvals mangle e) [] (mvals_sorted mangle e Hs)) as H. cbn [app] in H. rewrite <- H.
  unfold params_map, mvals. clear. generalize (@nil (bytes * bytes)). induction e as [|[n v] e IH]; intros acc; [reflexivity|]. cbn [map fold_left fst snd p_name p_value]. apply IH.
Qed.
Lemma elems_of_map_map m : good_sd m -> elems_map [] (elems_of_map m) = mangle_sd m.
Proof.
  intros [_ [Hs Hg]]. pose proof (fold_mset (mangle_sd m) [] (mvals_sorted _ m Hs)) as H. cbn [app] in H. rewrite <- H.
  unfold elems_map, mangle_sd, mvals, elems_of_map. clear Hs H. generalize (@nil (bytes * gmap bytes)).
  induction m as [|[id e] m IH]; intros acc; [reflexivity|]. cbn [map fold_left fst snd elem_of_map e_id e_params].
  rewrite params_of_map by (apply (Hg id e); left; reflexivity). apply IH. intros id' e' Hin. apply Hg. right. exact Hin.
Qed.
Lemma sorted_nodup {V} (m : gmap V) : msorted m -> NoDup (map fst m).
Proof.
  induction m as [|[k v] r IH]; intros H; cbn; [constructor|]. destruct H as [H1 H2]. constructor; [|auto].
  intros Hin. apply in_map_iff in Hin as [[k' v'] [E Hin]]. cbn in E. subst k'. specialize (H1 k v' Hin). rewrite bcmp_refl in H1. discriminate.
Qed.
Lemma sd_string_field it m : is_order it -> good_sd m -> sd_field (sd_string it m) (Some (mangle_sd m)).
Proof.
  intros Hit Hg. rewrite (sd_string_text it m Hit Hg), <- (elems_of_map_map m Hg). destruct Hg as [Hne [Hs Hg]]. constructor.
  - destruct m; [congruence|discriminate].
  - unfold elems_of_map. apply Forall_forall. intros el Hel. apply in_map_iff in Hel as [[id e] [<- Hin]]. apply elem_of_map_ok; apply (Hg id e Hin).
  - replace (map e_id (elems_of_map m)) with (map fst m); [apply sorted_nodup; exact Hs|]. unfold elems_of_map. rewrite map_map. reflexivity.
Qed.

Lemma word_dash max : (1 <= max)%nat -> word max (lit "-").
Proof. intros H. split; [cbn; lia|]. constructor; [vm_compute; split; discriminate|constructor]. Qed.
Lemma or_dash_word max w : (1 <= max)%nat -> good_word max w -> word max (or_dash w) /\ word_value (or_dash w) = w.
Proof.
  intros Hm H. destruct w as [w|]; cbn [or_dash].
  - destruct H as [H1 H2]. split; [exact H1|]. unfold word_value. apply bseqb_neq in H2. rewrite H2. reflexivity.
  - split; [apply word_dash; exact Hm|reflexivity].
Qed.

(* printing a well-formed valid message gives a text of the grammar denoting it (with mangled parameter values) *)
Theorem string_grammar it m cm : is_order it -> wf m -> msg_valid m = true ->
  (cm = true -> forall g, msg m = Some g -> compliant_msg g) ->
  exists s, to_string it m = Some s /\ grammar cm s (mangle_msg m).
Proof.
  intros Hit [Hp Hv Ht H4 H5 H6 H7 Hsd Hg] Hval Hcm. unfold to_string. rewrite Hval. eexists. split; [reflexivity|].
  unfold msg_valid in Hval. apply andb_true_iff in Hval as [Hval1 Hval2].
  unfold good_pri in Hp. destruct (priority m) as [p|] eqn:Ep; [|discriminate]. destruct Hp as [Hp [Hfa Hse]].
  unfold valid_version, in_between in Hval2. apply andb_true_iff in Hval2 as [Hv1 _]. apply Z.leb_le in Hv1.
  exists (to_dec p), (to_dec (version m)), (or_dash (match timestamp m with Some t => Some (format_micro t) | None => None end)),
    (or_dash (hostname m)), (or_dash (appname m)), (or_dash (procID m)), (or_dash (msgID m)),
    (match structuredData m with Some sd => sd_string it sd | None => lit "-" end), (match msg m with Some s => lit " " ++ s | None => [] end),
    p, (version m), (timestamp m), (option_map mangle_sd (structuredData m)), (msg m).
  split; [reflexivity|]. split; [apply to_dec_plain; lia|]. split; [apply to_dec_plain; lia|]. split.
  { destruct (timestamp m) as [t|] eqn:Et; cbn [or_dash]; [|left; split; reflexivity]. right. exists t. split; [reflexivity|].
    destruct (Ht t eq_refl) as [s Hs]. eapply format_micro_text. exact Hs. }
  pose proof (or_dash_word 255 (hostname m) ltac:(lia) H4) as [A1 A2]. pose proof (or_dash_word 48 (appname m) ltac:(lia) H5) as [B1 B2].
  pose proof (or_dash_word 128 (procID m) ltac:(lia) H6) as [C1 C2]. pose proof (or_dash_word 32 (msgID m) ltac:(lia) H7) as [D1 D2].
  split; [exact A1|]. split; [exact B1|]. split; [exact C1|]. split; [exact D1|]. rewrite A2, B2, C2, D2. split.
  { destruct (structuredData m) as [sd|] eqn:Es; cbn [option_map]; [apply sd_string_field; auto|constructor]. }
  split.
  { destruct (msg m) as [g|] eqn:Eg; [|constructor]. specialize (Hg g eq_refl). replace (Some g) with (nonempty g) by (destruct g; [congruence|reflexivity]).
    constructor. intros Hc. apply (Hcm Hc g eq_refl). }
  unfold mangle_msg. rewrite <- Hfa, <- Hse, <- Ep. destruct m; reflexivity.
Qed.
