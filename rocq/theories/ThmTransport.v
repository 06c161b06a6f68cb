(* C65, C66: messages sent over the transports. *)
From Verif Require Import Bytes GoMap GoTime CommonFacts Common M5424Def M5424 BuilderBaseDef MBuilder Grammar5424 Utf8 Thm5424 BFmt BWf ThmBuilder
  Bufio MOctet SpecOctet ThmOctet NonTransparentBaseDef MNT SpecNT ThmNT SpecTransport.
Local Open Scope Z_scope.

(* ---------- sendable messages ---------- *)
Lemma sendable_wf m : sendable m -> wf m /\ msg_valid m = true /\ all_values utf8 m.
Proof.
  intros [[Hb Hv]|[pm [data H]]].
  - split; [apply built_wf; exact Hb|]. split; [exact Hv|]. apply built_values_utf8. exact Hb.
  - apply parse_accepts_grammar in H. destruct (grammar_wf _ _ _ H) as [H1 [H2 _]]. split; [exact H1|]. split; [exact H2|]. eapply grammar_values. exact H.
Qed.
(* what a stream parser's machine says about a printed message *)
Lemma printed_parse m s best : sendable m -> printed m s -> snd (parse (new_machine best false) s) = Ret (Some (mangle_msg m)) None.
Proof.
  intros Hs [it [Hit E]]. destruct (sendable_wf m Hs) as [Hw [Hv _]].
  destruct (wf_print_parse it m (new_machine best false) Hit Hw Hv) as [s' [E' P]]; [intros H; discriminate|]. rewrite E in E'. injection E' as <-. exact P.
Qed.
Lemma printed_answer m s best : sendable m -> printed m s -> answer best s = (Some (mangle_msg m), None).
Proof. intros Hs Hp. unfold answer. rewrite (printed_parse m s best Hs Hp). reflexivity. Qed.
Lemma printed_lt m s : printed m s -> exists u, s = "<"%byte :: u.
Proof. intros [it [_ E]]. unfold to_string in E. destruct (msg_valid m); [|discriminate]. injection E as <-. eexists. reflexivity. Qed.
Lemma printed_exists m : sendable m -> exists s, printed m s.
Proof.
  intros Hs. destruct (sendable_wf m Hs) as [Hw [Hv _]]. assert (Hit : is_order any_order) by (intros w l; apply Permutation.Permutation_refl).
  destruct (wf_print_parse any_order m (new_machine false false) Hit Hw Hv) as [s' [E' P]]; [intros H; discriminate|]. exists s', any_order. auto.
Qed.

Lemma mangle_same m : same_but_values (mangle_msg m) m.
Proof.
  split; [reflexivity|].
  assert (K : forall V (f : V -> V) (e : gmap V), map fst (mvals f e) = map fst e).
  { intros V f e. unfold mvals. rewrite map_map. apply map_ext. intros [k v]. reflexivity. }
  assert (G : forall V W (f : V -> W) (g : gmap V) k, mget (mvals f g) k = option_map f (mget g k)).
  { intros V W f g k. induction g as [|[k' v'] r IH]; [reflexivity|]. cbn. destruct (bcmp k k'); auto. }
  unfold elem_contents, sd_contents, mangle_msg. cbn [structuredData set_structuredData]. destruct (structuredData m) as [sd|]; cbn [option_map]; [|auto].
  split; [apply K|]. intros id. unfold mangle_sd. rewrite G. destruct (mget sd id); cbn [option_map]; [apply K|reflexivity].
Qed.

(* ---------- octet counting ---------- *)
Lemma counted_frames max : forall ss data, counted ss data -> Forall (fun s => (exists u, s = "<"%byte :: u) /\ Z.of_nat (length s) <= max) ss ->
  exists fs, data = concat (map frame_text fs) /\ Forall (plain_frame max) fs /\ map f_msg fs = ss.
Proof.
  induction 1 as [|ds s ss r [H1 [H2 H3]] H IH]; intros HF; [exists []; repeat split; constructor|].
  inversion HF as [|? ? [Hlt Hl] HF']; subst. destruct (IH HF') as [fs [-> [Hfs Em]]]. exists (Frame ds [] s :: fs). split; [|split].
  - cbn [map concat]. unfold frame_text at 2. cbn [f_len f_msg]. rewrite <- app_assoc. reflexivity.
  - constructor; [|exact Hfs]. split; [|reflexivity]. unfold frame_ok. cbn [f_len f_msg f_gap]. rewrite H3. auto 8.
  - cbn [map f_msg]. rewrite Em. reflexivity.
Qed.

Lemma octet_send opts before rd ms ss : opts_max opts < 2 ^ 63 - 20 -> Forall sendable ms -> Forall2 printed ms ss ->
  Forall (fun s => Z.of_nat (length s) <= opts_max opts) ss -> ms <> [] -> well_behaved rd -> counted ss (content rd) ->
  emitted opts before rd = Some (map (fun m => Result (Some (mangle_msg m)) None) ms).
Proof.
  intros Hm Hs Hp Hl Hne Hw Hc.
  assert (HF : Forall (fun s => (exists u, s = "<"%byte :: u) /\ Z.of_nat (length s) <= opts_max opts) ss).
  { clear Hc Hne Hs. induction Hp as [|m s ms ss H1 Hp IH]; [constructor|]. inversion Hl; subst. constructor; [split; [eapply printed_lt; exact H1|assumption]|auto]. }
  destruct (counted_frames _ _ _ Hc HF) as [fs [E [Hfs Em]]].
  assert (A : Forall2 (fun m s => answer (opts_best opts) s = (Some (mangle_msg m), None)) ms (map f_msg fs)).
  { rewrite Em. clear - Hs Hp. induction Hp as [|m s ms ss H1 Hp IH]; [constructor|]. inversion Hs; subst. constructor; [apply printed_answer; assumption|auto]. }
  rewrite (well_formed_stream opts before rd fs Hm Hw E); [..|right]; [f_equal| |exact Hfs|].
  - clear - A. revert ms A. induction fs as [|f fs IH]; intros ms A; inversion A; subst; [reflexivity|]. cbn [map]. rewrite <- (IH _ H3). f_equal.
    unfold answer_result. rewrite H2. reflexivity.
  - intros ->. cbn in Em. subst ss. inversion Hp. subst. congruence.
  - clear - A. revert ms A. induction fs as [|f fs IH]; intros ms A; inversion A; subst; constructor; [rewrite H2; reflexivity|eauto].
Qed.

Lemma map_mangle_iff {R} (f : message -> R) ms : (forall a b, f a = f b -> a = b) -> Forall sendable ms ->
  (map (fun m => f (mangle_msg m)) ms = map f ms <-> Forall all_survive ms).
Proof.
  intros Hf. induction 1 as [|m ms Hs H IH]; [split; [constructor|reflexivity]|]. cbn [map]. destruct (sendable_wf m Hs) as [_ [_ Hu]]. split.
  - intros E. injection E as E1 E2. constructor; [apply (mangle_survive m Hu), Hf; exact E1|apply IH; exact E2].
  - intros E. inversion E as [|? ? E1 E2]; subst. rewrite (proj2 (mangle_survive m Hu) E1), (proj2 IH E2). reflexivity.
Qed.

(* C65 *)
Theorem octet_transport opts before rd ms ss : opts_max opts < 2 ^ 63 - 20 -> Forall sendable ms -> Forall2 printed ms ss ->
  Forall (fun s => Z.of_nat (length s) <= opts_max opts) ss -> ms <> [] -> well_behaved rd -> counted ss (content rd) ->
  (emitted opts before rd = Some (map (fun m => Result (Some m) None) ms) <-> Forall all_survive ms).
Proof.
  intros Hm Hs Hp Hl Hne Hw Hc. rewrite (octet_send opts before rd ms ss) by assumption.
  rewrite <- (map_mangle_iff (fun m => Result (Some m) None) ms) by (intros; try congruence; assumption). split; intros H; [injection H as H; exact H|f_equal; exact H].
Qed.
Theorem octet_transport_any opts before rd ms ss : opts_max opts < 2 ^ 63 - 20 -> Forall sendable ms -> Forall2 printed ms ss ->
  Forall (fun s => Z.of_nat (length s) <= opts_max opts) ss -> ms <> [] -> well_behaved rd -> counted ss (content rd) ->
  exists ms', emitted opts before rd = Some (map (fun m => Result (Some m) None) ms') /\ Forall2 same_but_values ms' ms.
Proof.
  intros Hm Hs Hp Hl Hne Hw Hc. exists (map mangle_msg ms). split; [rewrite map_map; apply (octet_send opts before rd ms ss); assumption|].
  clear. induction ms; constructor; [apply mangle_same|assumption].
Qed.

(* ---------- which printed messages are one message for the other transport ---------- *)
Lemma trailer_lt t : trailer_byte t -> (bN t < 32)%N.
Proof. intros [-> | ->]; vm_compute; reflexivity. Qed.

Lemma split_skip (t : byte) x : forall p, ~ In t p -> forall R a, a ++ t :: x = p ++ R -> exists a', a = p ++ a' /\ R = a' ++ t :: x.
Proof.
  induction p as [|c p IH]; intros Hn R a E; [exists a; auto|]. destruct a as [|c' a]; cbn [app] in E; injection E as E1 E2; [destruct Hn; left; auto|].
  subst c'. destruct (IH (fun H => Hn (or_intror H)) _ _ E2) as [a' [-> ->]]. exists a'. auto.
Qed.
Lemma breaks_app_l t a b : breaks t a -> breaks t (a ++ b).
Proof. intros [x [y ->]]. exists x, (y ++ b). rewrite <- app_assoc. reflexivity. Qed.
Lemma breaks_app_r t a b : breaks t b -> breaks t (a ++ b).
Proof. intros [x [y ->]]. exists (a ++ x), y. rewrite <- app_assoc. reflexivity. Qed.
Lemma no_breaks t a : ~ In t a -> ~ breaks t a.
Proof. intros H [x [y ->]]. apply H. apply in_or_app. right. left. reflexivity. Qed.
(* a separator x that is neither the trailer nor '<' *)
Lemma breaks_sep (t x : byte) : x <> t -> x <> "<"%byte -> forall l r, breaks t (l ++ x :: r) <-> breaks t l \/ breaks t r.
Proof.
  intros Hx Hl l r. split.
  - intros [a [b E]]. revert a E. induction l as [|c l IH]; intros a E.
    + destruct a as [|c' a]; cbn [app] in E; injection E as E1 E2; [congruence|]. right. exists a, b. exact E2.
    + destruct a as [|c' a]; cbn [app] in E; injection E as E1 E2.
      * subst c. destruct l as [|c l]; cbn [app] in E2; injection E2 as E2 E3; [congruence|]. left. exists [], l. subst. reflexivity.
      * subst c'. destruct (IH _ E2) as [H|H]; [left|right; exact H]. destruct H as [y [z ->]]. exists (c :: y), z. reflexivity.
  - intros [H|H]; [apply breaks_app_l; exact H|]. apply breaks_app_r. apply (breaks_app_r t [x]). exact H.
Qed.
Lemma breaks_pre t p r : ~ In t p -> breaks t (p ++ r) <-> breaks t r.
Proof.
  intros H. split; [|apply breaks_app_r]. intros [a [b E]]. symmetry in E. destruct (split_skip t _ p H r a E) as [a' [-> ->]]. exists a', b. reflexivity.
Qed.

(* character by character: the trailer and '<' stand for themselves, the others are written without them *)
Lemma breaks_chars t (f : N -> bytes) cs : t <> "<"%byte -> f (bN t) = [t] -> f 60%N = ["<"%byte] ->
  (forall c, In c cs -> c <> bN t -> c <> 60%N -> f c <> [] /\ ~ In t (f c) /\ ~ In "<"%byte (f c)) ->
  (breaks t (concat (map f cs)) <-> exists a b, cs = a ++ bN t :: 60%N :: b).
Proof.
  intros Ht Ft Fl. induction cs as [|c cs IH]; intros Hf.
  - split; [intros [a [b E]]; destruct a; discriminate|intros [a [b E]]; destruct a; discriminate].
  - specialize (IH (fun c' H => Hf c' (or_intror H))). cbn [map concat]. split.
    + assert (Up : (exists a b, cs = a ++ bN t :: 60%N :: b) -> exists a b, c :: cs = a ++ bN t :: 60%N :: b).
      { intros [a [b ->]]. exists (c :: a), b. reflexivity. }
      intros H. destruct (N.eq_dec c (bN t)) as [-> | Nt].
      { rewrite Ft in H. destruct H as [a [b E]]. destruct a as [|c' a]; cbn [app] in E; [injection E as E2|injection E as E1 E2; apply Up, IH; exists a, b; exact E2].
        destruct cs as [|c2 cs]; [discriminate|]. cbn [map concat] in E2. exists [], cs. cbn [app]. f_equal. f_equal.
        destruct (N.eq_dec c2 (bN t)) as [-> | N2]; [rewrite Ft in E2; injection E2 as E2 _; congruence|].
        destruct (N.eq_dec c2 60%N) as [-> | N3]; [reflexivity|]. destruct (Hf c2 (or_intror (or_introl eq_refl)) N2 N3) as [H1 [_ H2]].
        destruct (f c2) as [|y u]; [congruence|]. cbn [app] in E2. injection E2 as -> _. destruct H2. left. reflexivity. }
      apply Up, IH. destruct (N.eq_dec c 60%N) as [-> | Nl].
      { rewrite Fl in H. apply (proj1 (breaks_pre t ["<"%byte] _ ltac:(intros [H'|[]]; congruence))) in H. exact H. }
      destruct (Hf c (or_introl eq_refl) Nt Nl) as [_ [H1 _]]. exact (proj1 (breaks_pre t (f c) _ H1) H).
    + intros [a [b E]]. destruct a as [|c' a]; cbn [app] in E; injection E as E1 E2; [|apply breaks_app_r, IH; exists a, b; exact E2].
      subst. rewrite Ft. cbn [map concat]. rewrite Fl. exists [], (concat (map f b)). reflexivity.
Qed.

Lemma bN_inj' a b : bN a = bN b -> a = b. Proof. intros H. apply beqb_eq. unfold beqb. apply N.eqb_eq. exact H. Qed.
Lemma encode_hi c : scalar c -> (128 <= c)%N -> encode c <> [] /\ Forall (fun b => (128 <= bN b)%N) (encode c).
Proof.
  intros Hc H. destruct (encode_cases c Hc) as [[H1 _]|[_ [b [u [i [-> [Hb [_ Hu]]]]]]]]; [lia|]. split; [discriminate|]. constructor; [exact Hb|]. eapply utail_high; exact Hu.
Qed.

Lemma hi_not_in l b : (bN b < 128)%N -> Forall (fun b => (128 <= bN b)%N) l -> ~ In b l.
Proof. intros Hb H Hin. rewrite Forall_forall in H. specialize (H b Hin). cbv beta in H. lia. Qed.
Lemma encode_ascii c : (c < 128)%N -> encode c = [byte_of c] /\ bN (byte_of c) = c.
Proof. intros H. destruct (encode_cases c) as [[_ H1]|[H1 _]]; [split; lia|exact H1|lia]. Qed.
Lemma escape_chars cs : Forall scalar cs -> escape_bytes (concat (map encode cs)) = concat (map (fun c => escape (encode (bN (first_byte c)))) cs).
Proof.
  rewrite escape_bytes_mangle. induction 1 as [|c cs Hc H IH]; [reflexivity|]. cbn [map concat]. rewrite (mangle_encode c _ Hc), escape_app, IH. reflexivity.
Qed.
Lemma escape_breaks t v : trailer_byte t -> utf8 v -> (breaks t (escape_bytes v) <-> breaks t v).
Proof.
  intros Ht Hv. destruct (utf8_chars v Hv) as [cs [Hcs ->]]. rewrite (escape_chars cs Hcs). pose proof (trailer_lt t Ht) as Hlt.
  assert (Hne : t <> "<"%byte) by (intros ->; vm_compute in Hlt; discriminate).
  assert (Asc : forall c, (c < 128)%N -> bN (first_byte c) = c).
  { intros c Hc. destruct (encode_ascii c Hc) as [E1 E2]. unfold first_byte. rewrite E1. exact E2. }
  rewrite (breaks_chars t (fun c => escape (encode (bN (first_byte c)))) cs Hne), (breaks_chars t encode cs Hne); [reflexivity|..].
  - destruct (encode_ascii (bN t)) as [E1 E2]; [lia|]. rewrite E1. f_equal. apply bN_inj'. exact E2.
  - reflexivity.
  - intros c Hin N1 N2. rewrite Forall_forall in Hcs. specialize (Hcs c Hin). destruct (N.lt_ge_cases c 128) as [H|H].
    + destruct (encode_ascii c H) as [E1 E2]. rewrite E1. split; [discriminate|]. split; intros [E|[]]; subst; [apply N1|apply N2]; symmetry; assumption || (rewrite <- E2; rewrite E; reflexivity).
    + destruct (encode_hi c Hcs H) as [H1 H2]. split; [exact H1|]. split; apply hi_not_in; try exact H2; [lia|vm_compute; reflexivity].
  - rewrite Asc by lia. destruct (encode_ascii (bN t)) as [E1 E2]; [lia|]. rewrite E1. assert (byte_of (bN t) = t) as -> by (apply bN_inj'; exact E2).
    destruct Ht as [-> | ->]; reflexivity.
  - reflexivity.
  - intros c Hin N1 N2. rewrite Forall_forall in Hcs. specialize (Hcs c Hin). destruct (N.lt_ge_cases c 128) as [H|H].
    + rewrite Asc by exact H. destruct (encode_ascii c H) as [E1 E2]. rewrite E1. cbn [escape].
      assert (Hb : byte_of c <> t /\ byte_of c <> "<"%byte) by (split; intros E; rewrite E in E2; [apply N1|apply N2]; symmetry; exact E2).
      assert (Hq : "\"%byte <> t /\ "\"%byte <> "<"%byte) by (destruct Ht as [-> | ->]; split; discriminate).
      destruct (beqb (byte_of c) """" || beqb (byte_of c) "\" || beqb (byte_of c) "]"); (split; [discriminate|split; intros Hi; repeat (destruct Hi as [Hi|Hi]; [tauto|]); exact Hi]).
    + pose proof (first_byte_high c Hcs H) as Hfb. assert (Hs : scalar (bN (first_byte c))) by (split; lia).
      destruct (encode_hi _ Hs) as [H1 H2]; [lia|]. rewrite (escape_plain _ H2). split; [exact H1|]. split; apply hi_not_in; try exact H2; [lia|vm_compute; reflexivity].
Qed.

(* the header has no byte below 32 *)
Definition clean (l : bytes) : Prop := Forall (fun b => (32 <= bN b)%N) l.
Lemma clean_not_in t l : trailer_byte t -> clean l -> ~ In t l.
Proof. intros Ht H Hin. unfold clean in H. rewrite Forall_forall in H. specialize (H t Hin). cbv beta in H. pose proof (trailer_lt t Ht). lia. Qed.
Lemma clean_digits l : Forall digit l -> clean l. Proof. apply Forall_impl. unfold digit. intros. lia. Qed.
Lemma clean_printable l : Forall printable l -> clean l. Proof. apply Forall_impl. unfold printable. intros. lia. Qed.
Lemma clean_sdname l : sdname l -> clean l. Proof. intros [_ H]. revert H. apply Forall_impl. intros b [H _]. unfold printable in H. lia. Qed.
Lemma clean_app a b : clean a -> clean b -> clean (a ++ b). Proof. intros; apply Forall_app; auto. Qed.
Ltac cleanlit := unfold clean; repeat constructor; vm_compute; discriminate.
Lemma clean_num n ds lo hi v : num n ds lo hi v -> clean ds. Proof. intros [_ [H _]]. apply clean_digits. exact H. Qed.
Lemma clean_ts s t : ts_text s t -> clean s.
Proof.
  intros (yyyy & mo & dd & hh & mi & ss & fr & zo & -> & H1 & H2 & H3 & H4 & H5 & H6 & H7 & H8).
  repeat (apply clean_app; [solve [eapply clean_num; eassumption | cleanlit]|]). apply clean_app.
  - destruct H7 as [|ds _ H]; [constructor|]. apply (clean_app ["."%byte]); [cleanlit|apply clean_digits; exact H].
  - destruct H8; [cleanlit|..]; repeat (apply clean_app; [solve [eapply clean_num; eassumption | cleanlit]|]); eapply clean_num; eassumption.
Qed.
Lemma clean_word n w : (1 <= n)%nat -> good_word n w -> clean (or_dash w).
Proof. intros Hn H. destruct (or_dash_word n w Hn H) as [[_ H1] _]. apply clean_printable. exact H1. Qed.

Definition header (m : message) : bytes :=
  lit "<" ++ to_dec (match priority m with Some p => p | None => 0 end) ++ lit ">" ++ to_dec (version m) ++ lit " "
      ++ or_dash (match timestamp m with Some t => Some (format_micro t) | None => None end) ++ lit " "
      ++ or_dash (hostname m) ++ lit " " ++ or_dash (appname m) ++ lit " " ++ or_dash (procID m) ++ lit " " ++ or_dash (msgID m) ++ lit " ".
Lemma to_string_parts it m : to_string it m =
  if msg_valid m then Some (header m ++ (match structuredData m with Some sd => sd_string it sd | None => lit "-" end)
      ++ match msg m with Some s => " "%byte :: s | None => [] end) else None.
Proof. unfold to_string, header. destruct (msg_valid m); [|reflexivity]. f_equal. rewrite <- !app_assoc. reflexivity. Qed.
Lemma header_clean m : wf m -> msg_valid m = true -> clean (header m).
Proof.
  intros [Hp Hv Ht H4 H5 H6 H7 _ _] Hval. unfold header.
  assert (P : clean (to_dec (match priority m with Some p => p | None => 0 end))).
  { unfold msg_valid in Hval. unfold good_pri in Hp. destruct (priority m) as [p|]; [|discriminate]. destruct Hp as [Hp _].
    destruct (to_dec_plain p 0 191) as [H _]; [lia|lia|]. apply clean_digits. exact H. }
  assert (V : clean (to_dec (version m))). { destruct (to_dec_plain (version m) 0 999) as [H _]; [lia|lia|]. apply clean_digits. exact H. }
  assert (T : clean (or_dash (match timestamp m with Some t => Some (format_micro t) | None => None end))).
  { destruct (timestamp m) as [t|]; cbn [or_dash]; [|cleanlit]. destruct (Ht t eq_refl) as [s Hs]. eapply clean_ts, format_micro_text. exact Hs. }
  repeat (apply clean_app; [solve [assumption | eapply clean_word; [|eassumption]; lia | cleanlit]|]). cleanlit.
Qed.

Lemma params_breaks t ps r : trailer_byte t -> (forall p, In p ps -> sdname (p_name p)) ->
  (breaks t (concat (map param_text ps) ++ r) <-> (exists p, In p ps /\ breaks t (p_raw p)) \/ breaks t r).
Proof.
  intros Ht. induction ps as [|p ps IH]; intros Hn.
  - cbn. firstorder.
  - cbn [map concat]. unfold param_text at 1.
    replace (((lit " " ++ p_name p ++ lit "=""" ++ p_raw p ++ lit """") ++ concat (map param_text ps)) ++ r)
      with ((lit " " ++ p_name p ++ lit "=""") ++ p_raw p ++ """"%byte :: (concat (map param_text ps) ++ r)) by (rewrite <- !app_assoc; reflexivity).
    rewrite breaks_pre, breaks_sep, IH.
    + split; [intros [H|[[q [H1 H2]]|H]]|intros [[q [[-> |H1] H2]]|H]]; auto.
      * left. exists p. split; [left; reflexivity|exact H].
      * left. exists q. split; [right; exact H1|exact H2].
      * right. left. exists q. auto.
    + intros q Hq. apply Hn. right. exact Hq.
    + destruct Ht as [-> | ->]; discriminate.
    + discriminate.
    + apply clean_not_in; [exact Ht|]. apply clean_app; [cleanlit|]. apply clean_app; [apply clean_sdname, Hn; left; reflexivity|cleanlit].
Qed.
Lemma elems_breaks t es r : trailer_byte t -> Forall elem_ok es ->
  (breaks t (concat (map elem_text es) ++ r) <-> (exists e p, In e es /\ In p (e_params e) /\ breaks t (p_raw p)) \/ breaks t r).
Proof.
  intros Ht. induction 1 as [|e es [Hid Hps] H IH].
  - cbn. firstorder.
  - cbn [map concat]. unfold elem_text at 1.
    replace (((lit "[" ++ e_id e ++ concat (map param_text (e_params e)) ++ lit "]") ++ concat (map elem_text es)) ++ r)
      with ((lit "[" ++ e_id e) ++ concat (map param_text (e_params e)) ++ [] ++ "]"%byte :: (concat (map elem_text es) ++ r)) by (rewrite <- !app_assoc; reflexivity).
    rewrite breaks_pre, params_breaks, breaks_sep, IH.
    + split.
      * intros [[q [H1 H2]]|[H1|[[e' [q [H1 [H2 H3]]]]|H1]]]; auto.
        -- left. exists e, q. split; [left; reflexivity|auto].
        -- destruct H1 as [[|? ?] [? H1]]; discriminate.
        -- left. exists e', q. split; [right; exact H1|auto].
      * intros [[e' [q [[-> |H1] H2]]]|H1]; auto.
        -- left. exists q. exact H2.
        -- right. right. left. exists e', q. auto.
    + destruct Ht as [-> | ->]; discriminate.
    + discriminate.
    + exact Ht.
    + intros p Hp. rewrite Forall_forall in Hps. apply (Hps p Hp).
    + apply clean_not_in; [exact Ht|]. apply clean_app; [cleanlit|apply clean_sdname; exact Hid].
Qed.

(* C66: a printed message is one message for the transport iff neither its text nor a parameter value contains the trailer followed by '<' *)
Theorem printed_one_message t m s : trailer_byte t -> sendable m -> printed m s -> (one_message t s <-> unbroken t m).
Proof.
  intros Ht Hs Hp. pose proof (printed_lt m s Hp) as Hlt. destruct (sendable_wf m Hs) as [Hw [Hv Hu]]. destruct Hp as [it [Hit E]].
  rewrite to_string_parts, Hv in E.
  assert (S_inj : forall a b : bytes, Some a = Some b -> a = b) by (intros; congruence). apply S_inj in E.
  assert (B : breaks t s <-> (exists sd id e n v, structuredData m = Some sd /\ In (id, e) sd /\ In (n, v) e /\ breaks t v) \/ exists g, msg m = Some g /\ breaks t g).
  { rewrite <- E. rewrite (breaks_pre t (header m)) by (apply clean_not_in; [exact Ht|apply header_clean; assumption]).
    assert (T : breaks t (match msg m with Some s0 => " "%byte :: s0 | None => [] end) <-> exists g, msg m = Some g /\ breaks t g).
    { destruct (msg m) as [g|].
      - rewrite (breaks_sep t " " ltac:(destruct Ht as [-> | ->]; discriminate) ltac:(discriminate) [] g). split.
        + intros [[[|? ?] [? H]]|H]; [discriminate|discriminate|]. exists g. auto.
        + intros [g' [Eg H]]. injection Eg as ->. auto.
      - split; [intros [[|? ?] [? H]]; discriminate|intros [g [H _]]; discriminate]. }
    destruct (structuredData m) as [sd|] eqn:Esd.
    - pose proof (wf_sd m Hw sd Esd) as Hg. rewrite (sd_string_text it sd Hit Hg).
      assert (Hok : Forall elem_ok (elems_of_map sd)).
      { destruct Hg as [_ [_ Hg]]. unfold elems_of_map. apply Forall_forall. intros el Hel. apply in_map_iff in Hel as [[id e] [<- Hin]]. apply elem_of_map_ok; apply (Hg id e Hin). }
      rewrite (elems_breaks t _ _ Ht Hok), T. apply or_iff_compat_r. split.
      + intros [el [p [H1 [H2 H3]]]]. unfold elems_of_map in H1. apply in_map_iff in H1 as [[id e] [<- Hin]]. cbn [elem_of_map e_params] in H2.
        apply in_map_iff in H2 as [[n v] [<- Hin2]]. cbn [p_raw fst snd] in *. apply (escape_breaks t v Ht (Hu sd id e n v Esd Hin Hin2)) in H3.
        exists sd, id, e, n, v. auto.
      + intros [sd' [id [e [n [v [H0 [H1 [H2 H3]]]]]]]]. injection H0 as <-. exists (elem_of_map id e), (Param n (escape_bytes v) (mangle v)). split; [|split].
        * unfold elems_of_map. apply in_map_iff. exists (id, e). auto.
        * cbn [elem_of_map e_params]. apply in_map_iff. exists (n, v). auto.
        * cbn [p_raw]. apply (escape_breaks t v Ht (Hu sd id e n v Esd H1 H2)). exact H3.
    - assert (Hd : ~ In t (lit "-")) by (apply clean_not_in; [exact Ht|cleanlit]). rewrite (breaks_pre t (lit "-") _ Hd), T. split; [auto|]. intros [[sd [? [? [? [? [H _]]]]]]|H]; [discriminate|exact H]. }
  unfold one_message, unbroken, all_values. split.
  - intros [_ H]. assert (N : ~ breaks t s) by (intros [a [b E']]; exact (H a b E')). split.
    + intros g Hg Hb. apply N, B. right. eauto.
    + intros sd id e n v H1 H2 H3 Hb. apply N, B. left. exists sd, id, e, n, v. auto.
  - intros [H1 H2]. split; [exact Hlt|]. intros a b E'. assert (N : breaks t s) by (exists a, b; exact E'). apply B in N as [[sd [id [e [n [v [G1 [G2 [G3 G4]]]]]]]]|[g [G1 G2]]].
    + eapply H2; eassumption.
    + eapply H1; eassumption.
Qed.

(* ---------- the non-transparent transport ---------- *)
Lemma Forall2_len {A B} {R : A -> B -> Prop} {l l'} : Forall2 R l l' -> length l = length l'.
Proof. induction 1; cbn; congruence. Qed.
Lemma opts_trailer opts : trailer_byte (nopts_trailer opts).
Proof. destruct (nnew_opts opts) as [Hx [<- _]]. apply nvok_trailer. exact Hx. Qed.
Lemma framed_app t a b : framed t (a ++ b) = framed t a ++ framed t b.
Proof. unfold framed. rewrite map_app, concat_app. reflexivity. Qed.
Lemma pieces t s : trailer_byte t -> (exists u, s = "<"%byte :: u) ->
  exists ps, s ++ [t] = framed t ps /\ Forall (one_message t) ps /\ (1 <= length ps)%nat /\ (length ps = 1%nat -> one_message t s).
Proof.
  intros Ht [u ->]. destruct (nt_decompose t (("<"%byte :: u) ++ [t]) Ht) as [ps [rest [E [H1 H2]]]]; [exists (u ++ [t]); reflexivity|].
  assert (rest = []) as ->.
  { destruct rest as [|b r]; [reflexivity|].
    destruct (@exists_last _ (b :: r)) as [r' [x Hx]]; [discriminate|]. rewrite Hx in *. rewrite app_assoc in E. apply app_inj_tail in E as [_ E].
    subst x. destruct H2. apply in_or_app. right. left. reflexivity. }
  rewrite app_nil_r in E. exists ps. split; [exact E|]. split; [exact H1|]. destruct ps as [|p ps]; [discriminate|]. split; [cbn; lia|].
  intros Hl. destruct ps; [|discriminate]. inversion H1 as [|? ? Hp _]; subst. unfold framed in E. cbn [map concat] in E. rewrite app_nil_r in E.
  apply app_inj_tail in E as [E _]. rewrite E. exact Hp.
Qed.
Lemma all_pieces t ss : trailer_byte t -> Forall (fun s => exists u, s = "<"%byte :: u) ss ->
  exists ps, framed t ss = framed t ps /\ Forall (one_message t) ps /\ (length ss <= length ps)%nat /\ (length ps = length ss -> Forall (one_message t) ss).
Proof.
  intros Ht. induction 1 as [|s ss Hs H [ps [E [H1 [H2 H3]]]]]; [exists []; repeat split; constructor|].
  destruct (pieces t s Ht Hs) as [qs [E' [G1 [G2 G3]]]]. exists (qs ++ ps). split; [|split; [|split]].
  - rewrite framed_app, <- E', <- E. reflexivity.
  - apply Forall_app. auto.
  - rewrite app_length. cbn [length]. lia.
  - rewrite app_length. cbn [length]. intros Hl. constructor; [apply G3; lia|apply H3; lia].
Qed.
Lemma printed_all_lt ms ss : Forall2 printed ms ss -> Forall (fun s => exists u, s = "<"%byte :: u) ss.
Proof. induction 1; constructor; [eapply printed_lt; eassumption|assumption]. Qed.
Lemma printed_all_one t ms ss : trailer_byte t -> Forall sendable ms -> Forall2 printed ms ss -> (Forall (one_message t) ss <-> Forall (unbroken t) ms).
Proof.
  intros Ht Hs Hp. induction Hp as [|m s ms ss H1 Hp IH]; [split; constructor|]. inversion Hs as [|? ? Hs1 Hs2]; subst. specialize (IH Hs2).
  pose proof (printed_one_message t m s Ht Hs1 H1) as B. split; intros H; inversion H; subst; constructor; tauto.
Qed.
Lemma nt_send d opts ms ss e : Forall sendable ms -> Forall2 printed ms ss -> Forall (unbroken (nopts_trailer opts)) ms ->
  nfresh d opts (framed (nopts_trailer opts) ss) e = Some (map (fun m => NResult (Some (mangle_msg m)) None) ms).
Proof.
  intros Hs Hp Hu. rewrite nt_messages by (apply (printed_all_one _ ms ss (opts_trailer opts)); assumption). f_equal.
  clear Hu. induction Hp as [|m s ms ss H1 Hp IH]; [reflexivity|]. inversion Hs as [|? ? Hs1 Hs2]; subst. cbn [map]. rewrite (IH Hs2). f_equal.
  unfold nanswer. rewrite (printed_answer m s _ Hs1 H1). reflexivity.
Qed.
(* C66 *)
Theorem nt_transport d opts ms ss e : let t := nopts_trailer opts in
  Forall sendable ms -> Forall2 printed ms ss ->
  (nfresh d opts (framed t ss) e = Some (map (fun m => NResult (Some m) None) ms) <-> Forall (unbroken t) ms /\ Forall all_survive ms).
Proof.
  cbn zeta. intros Hs Hp.
  assert (M := map_mangle_iff (fun m => NResult (Some m) None) ms ltac:(intros; congruence) Hs). split.
  - intros E. assert (U : Forall (unbroken (nopts_trailer opts)) ms).
    { apply (printed_all_one _ ms ss (opts_trailer opts) Hs Hp).
      destruct (all_pieces (nopts_trailer opts) ss (opts_trailer opts) (printed_all_lt ms ss Hp)) as [ps [E' [H1 [_ H2]]]]. apply H2.
      rewrite E', nt_messages in E by exact H1. assert (L : length (map (nanswer (nopts_best opts)) ps) = length ms) by (injection E as E; rewrite E, map_length; reflexivity).
      rewrite map_length in L. rewrite L. apply (Forall2_len Hp). }
    split; [exact U|]. rewrite (nt_send d opts ms ss e Hs Hp U) in E. injection E as E. apply M. exact E.
  - intros [U V]. rewrite (nt_send d opts ms ss e Hs Hp U). f_equal. apply M. exact V.
Qed.
Theorem nt_transport_any d opts ms ss e : let t := nopts_trailer opts in
  Forall sendable ms -> Forall2 printed ms ss -> Forall (unbroken t) ms ->
  exists ms', nfresh d opts (framed t ss) e = Some (map (fun m => NResult (Some m) None) ms') /\ Forall2 same_but_values ms' ms.
Proof.
  cbn zeta. intros Hs Hp Hu. exists (map mangle_msg ms). split; [rewrite map_map; apply nt_send; assumption|].
  clear. induction ms; constructor; [apply mangle_same|assumption].
Qed.
(* every message that is not unbroken is cut: more results than messages *)
Theorem nt_transport_cut d opts ms ss e : let t := nopts_trailer opts in
  Forall sendable ms -> Forall2 printed ms ss -> ~ Forall (unbroken t) ms ->
  exists rs, nfresh d opts (framed t ss) e = Some rs /\ (length ms < length rs)%nat.
Proof.
  cbn zeta. intros Hs Hp Hu. destruct (all_pieces (nopts_trailer opts) ss (opts_trailer opts) (printed_all_lt ms ss Hp)) as [ps [E' [H1 [H2 H3]]]].
  eexists. rewrite E', nt_messages by exact H1. split; [reflexivity|]. rewrite map_length, (Forall2_len Hp).
  destruct (Nat.eq_dec (length ps) (length ss)) as [E|E]; [|lia]. destruct Hu. apply (printed_all_one _ ms ss (opts_trailer opts) Hs Hp), H3, E.
Qed.

Lemma steps_app' a : forall b g m, steps g m (a ++ b) = match steps g m a with Some (g1, m1) => steps g1 m1 b | None => None end.
Proof. induction a as [|c a IH]; intros b g m; [reflexivity|]. cbn [app steps]. destruct (step g m c) as [[g1 m1]|]; auto. Qed.
Lemma with_msg_built g m : built m -> g <> [] -> built (with_msg g m).
Proof.
  intros Hb Hg. pose proof Hb as [cs [g0 [g1 H]]]. destruct (set_exact g1 m (SetMessage g) Hb) as [g2 [m' [E He]]]. cbn [effect] in He. destruct He as [He _].
  exists (cs ++ [SetMessage g]), g0, g2. rewrite steps_app', H. cbn [steps]. rewrite E, (He Hg). reflexivity.
Qed.
(* C66: forging.  Whoever chooses the text of one message can add another one: the receiver cannot tell them apart from two messages *)
Theorem nt_forgery d opts e m1 g1 s1 m2 s2 : let t := nopts_trailer opts in
  built m1 -> msg_valid m1 = true -> msg m1 = Some g1 -> printed m1 s1 -> unbroken t m1 -> all_survive m1 ->
  sendable m2 -> printed m2 s2 -> unbroken t m2 -> all_survive m2 ->
  let m := with_msg (g1 ++ t :: s2) m1 in
  built m /\ msg_valid m = true /\ printed m (s1 ++ t :: s2)
  /\ nfresh d opts (framed t [s1 ++ t :: s2]) e = Some [NResult (Some m1) None; NResult (Some m2) None].
Proof.
  cbn zeta. intros Hb Hv Hg Hp1 Hu1 Ha1 Hs2 Hp2 Hu2 Ha2. set (t := nopts_trailer opts) in *.
  split; [apply with_msg_built; [exact Hb|destruct g1; discriminate]|]. split; [exact Hv|]. split.
  - destruct Hp1 as [it [Hit E]]. exists it. split; [exact Hit|]. rewrite to_string_parts in *. rewrite Hv, Hg in E.
    change (msg_valid (with_msg (g1 ++ t :: s2) m1)) with (msg_valid m1). rewrite Hv.
    assert (S_inj : forall a b : bytes, Some a = Some b -> a = b) by (intros; congruence). apply S_inj in E. rewrite <- E. f_equal.
    change (header (with_msg (g1 ++ t :: s2) m1)) with (header m1). change (structuredData (with_msg (g1 ++ t :: s2) m1)) with (structuredData m1).
    change (msg (with_msg (g1 ++ t :: s2) m1)) with (Some (g1 ++ t :: s2)). cbv iota. rewrite <- !app_assoc. reflexivity.
  - replace (framed t [s1 ++ t :: s2]) with (framed t [s1; s2]) by (unfold framed; cbn [map concat]; rewrite <- !app_assoc; reflexivity).
    assert (F2 : forall A (P : A -> Prop) a b, P a -> P b -> Forall P [a; b]) by (intros; constructor; [assumption|constructor; [assumption|constructor]]).
    apply (nt_transport d opts [m1; m2] [s1; s2] e).
    + apply F2; [left; auto|exact Hs2].
    + constructor; [exact Hp1|constructor; [exact Hp2|constructor]].
    + split; apply F2; assumption.
Qed.

(* ---- the hypotheses are met: two messages, the second with a text containing a line feed *)
Definition ex_calls1 : list call := [SetPriority 30; SetVersion 1; SetHostname (lit "h"); SetParameter (lit "a") (lit "k") (lit "v\]"); SetMessage (lit "one")].
Definition ex_calls2 : list call := [SetPriority 191; SetVersion 2; SetMessage (lit "two" ++ ["010"%byte] ++ lit "lines")].
Definition ex_m1 : message := Eval vm_compute in match steps (Globals [] []) empty_message ex_calls1 with Some (_, m) => m | None => empty_message end.
Definition ex_m2 : message := Eval vm_compute in match steps (Globals [] []) empty_message ex_calls2 with Some (_, m) => m | None => empty_message end.
Definition ex_s1 : bytes := lit "<30>1 - h - - - [a k=""v\]""] one".
Definition ex_s2 : bytes := lit "<191>2 - - - - - - two" ++ ["010"%byte] ++ lit "lines".
Lemma any_order_ok : is_order any_order. Proof. intros w l. apply Permutation.Permutation_refl. Qed.
Lemma ascii_survive m : all_values ascii_only m -> all_survive m.
Proof.
  intros H s id e n v H1 H2 H3. specialize (H s id e n v H1 H2 H3). clear - H. exists (map bN v). split; [split|].
  - induction H; constructor; auto. split; lia.
  - induction H as [|b l Hb H IH]; [reflexivity|]. cbn [map concat]. destruct (encode_ascii (bN b) Hb) as [E1 E2]. rewrite E1, (bN_inj' _ _ E2), <- IH. reflexivity.
  - induction H; constructor; auto. left. assumption.
Qed.
Example ex_transport : built ex_m1 /\ built ex_m2 /\ msg_valid ex_m1 = true /\ msg_valid ex_m2 = true /\ printed ex_m1 ex_s1 /\ printed ex_m2 ex_s2
  /\ all_survive ex_m1 /\ all_survive ex_m2 /\ unbroken "010" ex_m1 /\ unbroken "010" ex_m2 /\ counted [ex_s1; ex_s2] (lit "31 " ++ ex_s1 ++ lit "28 " ++ ex_s2).
Proof.
  assert (V1 : all_values ascii_only ex_m1).
  { intros s id e n v H1 H2 H3. injection H1 as <-. destruct H2 as [E|[]]. injection E as <- <-. destruct H3 as [E|[]]. injection E as <- <-. repeat constructor. }
  assert (V2 : all_values ascii_only ex_m2) by (intros s id e n v H1; discriminate).
  split; [exists ex_calls1, (Globals [] []); eexists; vm_compute; reflexivity|]. split; [exists ex_calls2, (Globals [] []); eexists; vm_compute; reflexivity|].
  split; [reflexivity|]. split; [reflexivity|]. split; [exists any_order; split; [apply any_order_ok|vm_compute; reflexivity]|].
  split; [exists any_order; split; [apply any_order_ok|vm_compute; reflexivity]|]. split; [apply ascii_survive, V1|]. split; [apply ascii_survive, V2|].
  assert (B : forall g, existsb (fun k => beqb (nth k g x00) "010" && beqb (nth (S k) g x00) "<") (seq 0 (length g)) = false -> ~ breaks "010" g).
  { intros g H [a [b ->]]. assert (X : In (length a) (seq 0 (length (a ++ "010"%byte :: "<"%byte :: b)))) by (apply in_seq; rewrite app_length; cbn; lia).
    assert (Y : existsb (fun k => beqb (nth k (a ++ "010"%byte :: "<"%byte :: b) x00) "010" && beqb (nth (S k) (a ++ "010"%byte :: "<"%byte :: b) x00) "<")
      (seq 0 (length (a ++ "010"%byte :: "<"%byte :: b))) = true); [|congruence].
    apply existsb_exists. exists (length a). split; [exact X|]. rewrite !app_nth2 by lia. replace (length a - length a)%nat with 0%nat by lia.
    replace (S (length a) - length a)%nat with 1%nat by lia. reflexivity. }
  split; [|split].
  - split; [intros g E; injection E as <-; apply B; vm_compute; reflexivity|]. intros s id e n v H1 H2 H3. injection H1 as <-. destruct H2 as [E|[]]. injection E as <- <-. destruct H3 as [E|[]]. injection E as <- <-. apply B. vm_compute. reflexivity.
  - split; [intros g E; injection E as <-; apply B; vm_compute; reflexivity|]. intros s id e n v H1. discriminate.
  - apply (ct_cons (lit "31") ex_s1); [split; [discriminate|split; [repeat constructor; vm_compute; discriminate|vm_compute; reflexivity]]|].
    change (lit "28 " ++ ex_s2) with (lit "28" ++ " "%byte :: ex_s2). rewrite <- (app_nil_r ex_s2) at 2.
    apply (ct_cons (lit "28") ex_s2); [split; [discriminate|split; [repeat constructor; vm_compute; discriminate|vm_compute; reflexivity]]|constructor].
Qed.
