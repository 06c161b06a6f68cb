(* C89: what String copies: quadratic in the message it writes, because EscapeBytes appends character by character. *)
From Coq Require Import Permutation.
From Verif Require Import Bytes GoMap GoTime Common GotoLang M5424Def A5424 M5424 BuilderBaseDef GenBuilder ABuilder MBuilder MStringCost.
Local Open Scope Z_scope.

Lemma size_app a b : size (a ++ b) = size a + size b. Proof. unfold size. rewrite app_length. lia. Qed.
Lemma size_pos a : 0 <= size a. Proof. unfold size. lia. Qed.
(* ---- forgetting the counter ---- *)
Lemma c_escape_loop_fst l : forall skip a, fst (c_escape_loop skip l a) = fst a ++ escape_loop skip l.
Proof.
  induction l as [|b l IH]; intros skip a; cbn [c_escape_loop escape_loop]; [symmetry; apply app_nil_r|].
  destruct skip as [|k]; [|apply IH]. rewrite IH. unfold cat at 1. cbn [fst]. destruct (_ || _); unfold cat; cbn [fst]; rewrite <- ?app_assoc; reflexivity.
Qed.
Lemma c_escape_fst v : fst (c_escape v) = escape_bytes v. Proof. unfold c_escape. rewrite c_escape_loop_fst. reflexivity. Qed.
Definition piece (e : gmap bytes) (n : bytes) : bytes := lit " " ++ n ++ lit "=""" ++ escape_bytes (match mget e n with Some v => v | None => [] end) ++ lit """".
Lemma c_param_fst e a n : fst (c_param e a n) = fst a ++ piece e n.
Proof. unfold c_param, piece. pose proof (c_escape_fst (match mget e n with Some v => v | None => [] end)) as E. destruct (c_escape _) as [v c]. cbn [fst] in E. subst v. reflexivity. Qed.
Lemma c_params_fst e ns : forall a, fst (fold_left (c_param e) ns a) = fst a ++ concat (map (piece e) ns).
Proof. induction ns as [|n ns IH]; intros a; cbn [fold_left map concat]; [symmetry; apply app_nil_r|]. rewrite IH, c_param_fst, <- app_assoc. reflexivity. Qed.
Definition epiece (it : order) (m : sdmap) (id : bytes) : bytes := lit "[" ++ id ++ params_string it id (match mget m id with Some e => e | None => [] end) ++ lit "]".
Lemma c_elem_fst it m a id : fst (c_elem it m a id) = fst a ++ epiece it m id.
Proof. unfold c_elem, epiece, params_string. cbv zeta. unfold cat at 1. cbn [fst]. rewrite c_params_fst. unfold cat. cbn [fst]. unfold piece. rewrite <- !app_assoc. reflexivity. Qed.
Lemma c_elems_fst it m ids : forall a, fst (fold_left (c_elem it m) ids a) = fst a ++ concat (map (epiece it m) ids).
Proof. induction ids as [|n ns IH]; intros a; cbn [fold_left map concat]; [symmetry; apply app_nil_r|]. rewrite IH, c_elem_fst, <- app_assoc. reflexivity. Qed.
Lemma c_sd_fst it m : fst (c_sd it m) = sd_string it m.
Proof. unfold c_sd. rewrite c_elems_fst. reflexivity. Qed.
(* String answers what it answers without the counter *)
Theorem string_results it m : option_map fst (c_string it m) = to_string it m.
Proof.
  unfold c_string, to_string. destruct (msg_valid m); [|reflexivity].
  destruct (structuredData m) as [sd|]; [pose proof (c_sd_fst it sd) as E; destruct (c_sd it sd) as [s c]; cbn [fst] in E; subst s|]; destruct (msg m); reflexivity.
Qed.

(* ---- at most quadratic ---- *)
Lemma cat_bound a s : snd a <= snd (cat a s) <= snd a + size s * size (fst a ++ s).
Proof.
  unfold cat. cbn [snd]. pose proof (size_pos (fst a ++ s)). destruct (fst a) as [|x f]; [pose proof (size_pos s); nia|]. destruct s as [|y s]; [unfold size at 1; cbn [length]; nia|].
  assert (1 <= size (y :: s)) by (unfold size; cbn [length]; lia). nia.
Qed.
Definition sq (a : bytes * Z) : Prop := 0 <= snd a <= size (fst a) * size (fst a).
Lemma cat_sq a s : sq a -> sq (cat a s).
Proof. unfold sq. intros H. pose proof (cat_bound a s) as B. change (fst (cat a s)) with (fst a ++ s). rewrite size_app in *. pose proof (size_pos (fst a)). pose proof (size_pos s). nia. Qed.
Lemma c_escape_loop_sq l : forall skip a, sq a -> sq (c_escape_loop skip l a).
Proof.
  induction l as [|b l IH]; intros skip a H; cbn [c_escape_loop]; [exact H|]. destruct skip as [|k]; [|apply IH, H]. apply IH, cat_sq. destruct (_ || _); [apply cat_sq|]; exact H.
Qed.
Lemma c_escape_sq v : 0 <= snd (c_escape v) <= size (escape_bytes v) * size (escape_bytes v).
Proof. pose proof (c_escape_loop_sq v 0 ([], 0)) as H. unfold sq in H. fold (c_escape v) in H. rewrite c_escape_fst in H. apply H. cbn [snd]. unfold size. cbn [fst length]. lia. Qed.
Definition sq2 (a : bytes * Z) : Prop := 0 <= snd a <= size (fst a) * (2 * size (fst a) + 1).
Lemma cat_sq2 a s c : sq2 a -> 0 <= c <= size s * size s -> sq2 (cat (fst a, snd a + c + size s) s).
Proof.
  unfold sq2. intros H Hc. pose proof (cat_bound (fst a, snd a + c + size s) s) as B. cbn [fst snd] in B. change (fst (cat (fst a, snd a + c + size s) s)) with (fst a ++ s).
  rewrite size_app in *. pose proof (size_pos (fst a)). pose proof (size_pos s). nia.
Qed.
Lemma cat_sq2' a s : sq2 a -> sq2 (cat a s).
Proof. unfold sq2. intros H. pose proof (cat_bound a s) as B. change (fst (cat a s)) with (fst a ++ s). rewrite size_app in *. pose proof (size_pos (fst a)). pose proof (size_pos s). nia. Qed.
Lemma c_param_sq2 e a n : sq2 a -> sq2 (c_param e a n).
Proof.
  intros H. unfold c_param. pose proof (c_escape_sq (match mget e n with Some v => v | None => [] end)) as Q. pose proof (c_escape_fst (match mget e n with Some v => v | None => [] end)) as F.
  destruct (c_escape _) as [v c]. cbn [fst snd] in Q, F. subst v. cbv zeta. apply cat_sq2; [exact H|]. rewrite !size_app. set (k := size (escape_bytes _)) in *. pose proof (size_pos n). change (size (lit " ")) with 1. change (size (lit "=""")) with 2. change (size (lit """")) with 1.
  assert (0 <= k) by apply size_pos. match goal with |- _ <= _ <= ?S * ?S => assert (k <= S) by lia; set (z := S) in *; clearbody z; nia end.
Qed.
Lemma c_params_sq2 e ns : forall a, sq2 a -> sq2 (fold_left (c_param e) ns a).
Proof. induction ns as [|n ns IH]; intros a H; cbn [fold_left]; [exact H|]. apply IH, c_param_sq2, H. Qed.
Lemma c_elem_sq2 it m a id : sq2 a -> sq2 (c_elem it m a id).
Proof.
  intros H. unfold c_elem. cbv zeta. apply cat_sq2', c_params_sq2. replace (snd a + size (lit "[" ++ id)) with (snd a + 0 + size (lit "[" ++ id)) by lia.
  apply cat_sq2; [exact H|]. pose proof (size_pos (lit "[" ++ id)). nia.
Qed.
Lemma c_sd_sq2 it m : sq2 (c_sd it m).
Proof.
  unfold c_sd. generalize (sort_strings (it None (map fst m))). intros ids. assert (H : sq2 ([], 0)) by (unfold sq2, size; cbn; lia). revert H. generalize (@nil byte, 0).
  induction ids as [|n ns IH]; intros a H; cbn [fold_left]; [exact H|]. apply IH, c_elem_sq2, H.
Qed.
Lemma some_inj {A} (a b : A) : Some a = Some b -> a = b. Proof. congruence. Qed.
Lemma cat_space s : 0 <= snd (cat (lit " ", 0) s) <= size (fst (cat (lit " ", 0) s)).
Proof. unfold cat. cbn [fst snd]. change (lit " ") with [" "%byte]. destruct s; unfold size; cbn [length app]; lia. Qed.
(* what String writes on the way to a text of n bytes is at least n and at most n * (2 * n + 3) bytes *)
Theorem string_writes_bounded it m out : to_string it m = Some out -> exists c, writes it m = Some c /\ size out <= c <= size out * (2 * size out + 3).
Proof.
  intros H. rewrite <- string_results in H. unfold writes. unfold c_string in *. destruct (msg_valid m); [|discriminate H].
  assert (Q : sq2 (match structuredData m with Some sd => c_sd it sd | None => (lit "-", 0) end)) by (destruct (structuredData m); [apply c_sd_sq2|unfold sq2, size; cbn; lia]).
  destruct (match structuredData m with Some sd => c_sd it sd | None => (lit "-", 0) end) as [sd c]. unfold sq2 in Q. cbn [fst snd] in Q.
  assert (T : 0 <= snd (match msg m with Some s => cat (lit " ", 0) s | None => ([], 0) end) <= size (fst (match msg m with Some s => cat (lit " ", 0) s | None => ([], 0) end))).
  { destruct (msg m) as [s|]; [apply cat_space|cbn; lia]. }
  destruct (match msg m with Some s => cat (lit " ", 0) s | None => ([], 0) end) as [tail d]. cbn [fst snd] in T.
  cbv zeta in *. cbn [option_map fst snd] in *. apply some_inj in H. rewrite H. eexists. split; [reflexivity|].
  assert (L : size sd + size tail <= size out).
  { rewrite <- H. rewrite !size_app. repeat match goal with |- context [size (or_dash ?a)] => let k := fresh in set (k := size (or_dash a)); assert (0 <= k) by apply size_pos; clearbody k end.
    repeat match goal with |- context [size (to_dec ?a)] => let k := fresh in set (k := size (to_dec a)); assert (0 <= k) by apply size_pos; clearbody k end.
    change (size (lit "<")) with 1. change (size (lit ">")) with 1. change (size (lit " ")) with 1. lia. }
  clear H. pose proof (size_pos sd). pose proof (size_pos tail). assert (c <= size out * (2 * size out + 1)) by nia. lia.
Qed.

(* without structured data it is linear *)
Theorem string_writes_plain it m out : to_string it m = Some out -> structuredData m = None -> exists c, writes it m = Some c /\ size out <= c <= 2 * size out.
Proof.
  intros H Hn. rewrite <- string_results in H. unfold writes. unfold c_string in *. destruct (msg_valid m); [|discriminate H]. rewrite Hn in *.
  assert (T : 0 <= snd (match msg m with Some s => cat (lit " ", 0) s | None => ([], 0) end) <= size (fst (match msg m with Some s => cat (lit " ", 0) s | None => ([], 0) end))) by (destruct (msg m) as [s|]; [apply cat_space|cbn; lia]).
  destruct (match msg m with Some s => cat (lit " ", 0) s | None => ([], 0) end) as [tail d]. cbn [fst snd] in T.
  cbv zeta in *. cbn [option_map fst snd] in *. apply some_inj in H. rewrite H. eexists. split; [reflexivity|].
  assert (L : size tail <= size out).
  { rewrite <- H. rewrite !size_app. repeat match goal with |- context [size (or_dash ?a)] => let k := fresh in set (k := size (or_dash a)); assert (0 <= k) by apply size_pos; clearbody k end.
    repeat match goal with |- context [size (to_dec ?a)] => let k := fresh in set (k := size (to_dec a)); assert (0 <= k) by apply size_pos; clearbody k end.
    change (size (lit "<")) with 1. change (size (lit ">")) with 1. change (size (lit " ")) with 1. change (size (lit "-")) with 1. lia. }
  lia.
Qed.

(* ---- at least quadratic in a value ---- *)
Definition ascii (b : byte) : Prop := (bN b < 128)%N.
Lemma ascii_rest b r : ascii b -> rune_rest b r = 0%nat.
Proof. unfold ascii. intros H. destruct r; destruct b; try reflexivity; exfalso; vm_compute in H; discriminate H. Qed.
Lemma ascii_string b : ascii b -> string_of_byte b = [b].
Proof. unfold ascii, string_of_byte. intros H. apply N.ltb_lt in H. rewrite H. reflexivity. Qed.
Lemma c_escape_loop_low l : forall a, Forall ascii l -> fst a <> [] ->
  2 * snd a + 2 * size l * size (fst a) + size l * (size l + 1) <= 2 * snd (c_escape_loop 0 l a).
Proof.
  induction l as [|b l IH]; intros a Hl Ha; cbn [c_escape_loop].
  - unfold size at 1 3 4. cbn [length]. lia.
  - inversion Hl as [|x y Hb Hl' E]; subst. rewrite (ascii_rest _ _ Hb), (ascii_string _ Hb).
    match goal with |- context [cat ?z [b]] => set (a1 := z) end. assert (A : snd a <= snd a1 /\ size (fst a) <= size (fst a1) /\ fst a1 <> []).
    { unfold a1. destruct (_ || _); [|repeat split; [lia|lia|exact Ha]]. pose proof (cat_bound a ["\"%byte]). split; [lia|]. change (fst (cat a ["\"%byte])) with (fst a ++ ["\"%byte]). rewrite size_app. split; [pose proof (size_pos ["\"%byte]); lia|]. destruct (fst a); discriminate. }
    clearbody a1. destruct A as [A1 [A2 A3]]. specialize (IH (cat a1 [b]) Hl'). change (fst (cat a1 [b])) with (fst a1 ++ [b]) in IH.
    assert (C : snd (cat a1 [b]) = snd a1 + size (fst a1 ++ [b])) by (unfold cat; cbn [snd]; destruct (fst a1) as [|z f]; [congruence|reflexivity]).
    rewrite C in IH. rewrite size_app in IH. change (size [b]) with 1 in IH. assert (fst a1 ++ [b] <> []) by (destruct (fst a1); discriminate). specialize (IH H).
    assert (S : size (b :: l) = size l + 1) by (unfold size; cbn [length]; lia). rewrite S. pose proof (size_pos l). pose proof (size_pos (fst a)). nia.
Qed.
Lemma c_escape_low v : Forall ascii v -> size v * (size v + 1) <= 2 * snd (c_escape v) + 2.
Proof.
  intros H. destruct v as [|b l]; [cbn; lia|]. unfold c_escape. cbn [c_escape_loop]. inversion H as [|x y Hb Hl E]; subst. rewrite (ascii_rest _ _ Hb), (ascii_string _ Hb).
  match goal with |- context [cat ?z [b]] => set (a1 := z) end. pose proof (c_escape_loop_low l (cat a1 [b]) Hl) as Q. change (fst (cat a1 [b])) with (fst a1 ++ [b]) in Q. assert (N : fst a1 ++ [b] <> []) by (destruct (fst a1); discriminate). specialize (Q N).
  assert (0 <= snd a1) by (unfold a1; destruct (_ || _); cbn; lia). pose proof (cat_bound a1 [b]). rewrite size_app in Q. change (size [b]) with 1 in Q. pose proof (size_pos (fst a1)). pose proof (size_pos l).
  assert (S : size (b :: l) = size l + 1) by (unfold size; cbn [length]; lia). rewrite S. nia.
Qed.
Lemma in_ins x k l : In x (ins k l) <-> x = k \/ In x l.
Proof.
  induction l as [|h r IH]; cbn [ins In]; [intuition|]. destruct (bcmp k h); cbn [In]; rewrite ?IH; intuition.
Qed.
Lemma in_sort x l : In x (sort_strings l) <-> In x l.
Proof. unfold sort_strings. induction l as [|h r IH]; cbn [fold_right In]; [reflexivity|]. rewrite in_ins, IH. intuition. Qed.
Lemma in_order it w (l : list bytes) x : is_order it -> In x l -> In x (sort_strings (it w l)).
Proof. intros H I. apply in_sort. eapply Permutation_in; [apply H|exact I]. Qed.
Lemma c_param_mono e a n : snd a <= snd (c_param e a n).
Proof.
  unfold c_param. pose proof (c_escape_sq (match mget e n with Some v => v | None => [] end)) as Q. destruct (c_escape _) as [v c]. cbn [snd] in Q. cbv zeta.
  pose proof (cat_bound (fst a, snd a + c + size (lit " " ++ n ++ lit "=""" ++ v ++ lit """")) (lit " " ++ n ++ lit "=""" ++ v ++ lit """")) as B. cbn [snd] in B. pose proof (size_pos (lit " " ++ n ++ lit "=""" ++ v ++ lit """")). lia.
Qed.
Lemma c_param_low e a n v : mget e n = Some v -> snd a + snd (c_escape v) <= snd (c_param e a n).
Proof.
  unfold c_param. intros ->. destruct (c_escape _) as [w c]. cbn [snd]. cbv zeta.
  pose proof (cat_bound (fst a, snd a + c + size (lit " " ++ n ++ lit "=""" ++ w ++ lit """")) (lit " " ++ n ++ lit "=""" ++ w ++ lit """")) as B. cbn [snd] in B. pose proof (size_pos (lit " " ++ n ++ lit "=""" ++ w ++ lit """")). lia.
Qed.
Lemma c_params_mono e ns : forall a, snd a <= snd (fold_left (c_param e) ns a).
Proof. induction ns as [|n ns IH]; intros a; cbn [fold_left]; [lia|]. specialize (IH (c_param e a n)). pose proof (c_param_mono e a n). lia. Qed.
Lemma c_params_low e ns n v : mget e n = Some v -> In n ns -> forall a, snd a + snd (c_escape v) <= snd (fold_left (c_param e) ns a).
Proof.
  intros H. induction ns as [|k ns IH]; intros Hi a; [destruct Hi|]. cbn [fold_left]. destruct Hi as [->|Hi].
  - pose proof (c_param_low e a n v H). pose proof (c_params_mono e ns (c_param e a n)). lia.
  - specialize (IH Hi (c_param e a k)). pose proof (c_param_mono e a k). lia.
Qed.
Lemma c_elem_mono it m a id : snd a <= snd (c_elem it m a id).
Proof.
  unfold c_elem. cbv zeta. set (e := match mget m id with Some e => e | None => [] end). set (s := lit "[" ++ id). set (ns := sort_strings _).
  pose proof (c_params_mono e ns (cat (fst a, snd a + size s) s)). pose proof (cat_bound (fst a, snd a + size s) s) as B. cbn [snd] in B. pose proof (size_pos s).
  pose proof (cat_bound (fold_left (c_param e) ns (cat (fst a, snd a + size s) s)) (lit "]")). lia.
Qed.
Lemma c_elem_low it m a id e n v : is_order it -> mget m id = Some e -> mget e n = Some v -> snd a + snd (c_escape v) <= snd (c_elem it m a id).
Proof.
  intros Ho He Hv. unfold c_elem. rewrite He. cbv zeta. set (s := lit "[" ++ id). set (ns := sort_strings _).
  assert (Hi : In n ns) by (apply in_order; [exact Ho|]; apply mget_In in Hv; apply (in_map fst) in Hv; exact Hv).
  pose proof (c_params_low e ns n v Hv Hi (cat (fst a, snd a + size s) s)). pose proof (cat_bound (fst a, snd a + size s) s) as B. cbn [snd] in B. pose proof (size_pos s).
  pose proof (cat_bound (fold_left (c_param e) ns (cat (fst a, snd a + size s) s)) (lit "]")). lia.
Qed.
Lemma c_sd_low it m id e n v : is_order it -> mget m id = Some e -> mget e n = Some v -> snd (c_escape v) <= snd (c_sd it m).
Proof.
  intros Ho He Hv. unfold c_sd. assert (Hi : In id (sort_strings (it None (map fst m)))) by (apply in_order; [exact Ho|]; apply mget_In in He; apply (in_map fst) in He; exact He).
  assert (M : forall ids a, snd a <= snd (fold_left (c_elem it m) ids a)) by (induction ids as [|k r IH]; intros a; cbn [fold_left]; [lia|]; specialize (IH (c_elem it m a k)); pose proof (c_elem_mono it m a k); lia).
  assert (L : forall ids a, In id ids -> snd a + snd (c_escape v) <= snd (fold_left (c_elem it m) ids a)).
  { induction ids as [|k r IH]; intros a Hin; [destruct Hin|]. cbn [fold_left]. destruct Hin as [->|Hin].
    - pose proof (c_elem_low it m a id e n v Ho He Hv). specialize (M r (c_elem it m a id)). lia.
    - specialize (IH (c_elem it m a k) Hin). pose proof (c_elem_mono it m a k). lia. }
  specialize (L _ ([], 0) Hi). cbn [snd] in L. lia.
Qed.
(* a parameter with an ASCII value of k bytes makes String write at least k * (k + 1) / 2 - 1 bytes *)
Theorem string_writes_value it m sd id e n v c : is_order it -> structuredData m = Some sd -> mget sd id = Some e -> mget e n = Some v -> Forall ascii v ->
  writes it m = Some c -> size v * (size v + 1) <= 2 * c + 2.
Proof.
  intros Ho Hs He Hv Ha H. unfold writes, c_string in H. destruct (msg_valid m); [|discriminate H]. rewrite Hs in H.
  pose proof (c_sd_low it sd id e n v Ho He Hv) as L. pose proof (c_escape_low v Ha). destruct (c_sd it sd) as [s c1]. cbn [snd] in L.
  assert (T : 0 <= snd (match msg m with Some s => cat (lit " ", 0) s | None => ([], 0) end)) by (destruct (msg m) as [t|]; [apply cat_space|cbn; lia]).
  destruct (match msg m with Some s => cat (lit " ", 0) s | None => ([], 0) end) as [tail d]. cbn [snd] in T. cbv zeta in H. cbn [option_map snd] in H. apply some_inj in H.
  match type of H with _ + size ?o = _ => pose proof (size_pos o) as P; set (z := size o) in *; clearbody z end. lia.
Qed.
(* so no constant bounds what String writes by a multiple of the length of its result *)
Definition value_message (v : bytes) : message := sd_message [(lit "a", [(lit "b", v)])].
Lemma escape_a k : escape_bytes (repeat "a"%byte k) = repeat "a"%byte k.
Proof. unfold escape_bytes. induction k as [|k IH]; [reflexivity|]. cbn [repeat escape_loop]. rewrite ascii_rest by reflexivity. rewrite IH. reflexivity. Qed.
Lemma one_key (it : order) w k : is_order it -> sort_strings (it w [k]) = [k].
Proof. intros H. rewrite (Permutation_length_1_inv (H w [k])). reflexivity. Qed.
Theorem string_writes_not_linear it K : is_order it -> exists v out c, to_string it (value_message v) = Some out /\ writes it (value_message v) = Some c /\ K * size out < c.
Proof.
  intros Ho. set (k := Z.to_nat (60 + 60 * Z.abs K)). set (v := repeat "a"%byte k).
  assert (E : to_string it (value_message v) = Some (lit "<0>1 - - - - - " ++ lit "[a b=""" ++ v ++ lit """]")).
  { unfold to_string, value_message, sd_message. cbn [structuredData msg version priority timestamp hostname appname procID msgID]. change (msg_valid _) with true. cbv iota.
    unfold sd_string. cbn [map fst]. rewrite (one_key it None (lit "a") Ho). cbn [map concat]. change (mget [(lit "a", [(lit "b", v)])] (lit "a")) with (Some [(lit "b", v)]). cbv iota.
    unfold params_string. cbn [map fst]. rewrite (one_key it (Some (lit "a")) (lit "b") Ho). cbn [map concat]. change (mget [(lit "b", v)] (lit "b")) with (Some v). cbv iota. unfold v at 1. rewrite escape_a.
    rewrite !app_nil_r, <- !app_assoc. reflexivity. }
  destruct (string_writes_bounded it _ _ E) as [c [W _]]. exists v, (lit "<0>1 - - - - - " ++ lit "[a b=""" ++ v ++ lit """]"), c. split; [exact E|]. split; [exact W|].
  assert (A : Forall ascii v) by (unfold v; clear; induction k; constructor; [reflexivity|assumption]).
  pose proof (string_writes_value it (value_message v) [(lit "a", [(lit "b", v)])] (lit "a") [(lit "b", v)] (lit "b") v c Ho eq_refl eq_refl eq_refl A W) as L. rewrite !size_app.
  assert (S : size v = 60 + 60 * Z.abs K) by (unfold size, v; rewrite repeat_length; unfold k; lia). rewrite S in *. change (size (lit "<0>1 - - - - - ")) with 15. change (size (lit "[a b=""")) with 6. change (size (lit """]")) with 2.
  pose proof (Z.abs_spec K). nia.
Qed.
(* value aaa...a, 100 times: 123 bytes of output *)
Example string_writes_ex : writes any_order (value_message (repeat "a"%byte 100)) = Some 5494 /\ option_map size (to_string any_order (value_message (repeat "a"%byte 100))) = Some 123
  /\ writes any_order (value_message (repeat """"%byte 100)) = Some 20944.
Proof. vm_compute. repeat split. Qed.
