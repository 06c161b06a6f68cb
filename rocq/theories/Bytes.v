(* Byte strings.  A Go []byte / string is a list of bytes (immutable: no aliasing is modelled here). *)
From Coq Require Export String Ascii.
From Coq Require Export Init.Byte Strings.Byte.
From Coq Require Export List Bool NArith ZArith Lia.
Export ListNotations.
Local Open Scope N_scope.

Notation bytes := (list byte).

(* the numeric value of a Go byte *)
Definition bN (b : byte) : N := Byte.to_N b.

(* ASCII literals *)
Definition lit (s : string) : bytes := list_byte_of_string s.

(* all 256 bytes *)
Definition all_bytes : list byte :=
  flat_map (fun n => match Byte.of_N (N.of_nat n) with Some b => [b] | None => [] end) (seq 0 256).

Lemma all_bytes_length : length all_bytes = 256%nat.
Proof. vm_compute. reflexivity. Qed.

Lemma all_bytes_complete b : In b all_bytes.
Proof. destruct b; vm_compute; repeat (first [left; reflexivity | right]). Qed.

Lemma forall_bytes (f : byte -> bool) : forallb f all_bytes = true -> forall b, f b = true.
Proof. intros H b. eapply forallb_forall in H; [exact H|]. apply all_bytes_complete. Qed.

Lemma bN_inj a b : bN a = bN b -> a = b.
Proof.
  unfold bN. intros H.
  assert (E : Byte.of_N (Byte.to_N a) = Byte.of_N (Byte.to_N b)) by (rewrite H; reflexivity).
  rewrite !Byte.of_to_N in E. congruence.
Qed.

Lemma bN_lt b : bN b < 256.
Proof. pose proof (Byte.to_N_bounded b). unfold bN. lia. Qed.

Definition beqb (a b : byte) : bool := N.eqb (bN a) (bN b).
Lemma beqb_eq a b : beqb a b = true <-> a = b.
Proof. unfold beqb. rewrite N.eqb_eq. split; [apply bN_inj | intros ->; reflexivity]. Qed.
Lemma beqb_refl a : beqb a a = true. Proof. apply beqb_eq. reflexivity. Qed.
Lemma beqb_neq a b : beqb a b = false <-> a <> b.
Proof. rewrite <- beqb_eq. destruct (beqb a b); split; congruence. Qed.

Fixpoint bseqb (a b : bytes) : bool :=
  match a, b with
  | [], [] => true
  | x :: a', y :: b' => beqb x y && bseqb a' b'
  | _, _ => false
  end.
Lemma bseqb_eq a b : bseqb a b = true <-> a = b.
Proof.
  revert b; induction a as [|x a IH]; intros [|y b]; cbn; try (split; congruence).
  rewrite andb_true_iff, beqb_eq, IH. split; [intros [-> ->]; reflexivity | intros E; injection E; auto].
Qed.
Lemma bseqb_refl a : bseqb a a = true. Proof. apply bseqb_eq. reflexivity. Qed.
Lemma bseqb_neq a b : bseqb a b = false <-> a <> b.
Proof. rewrite <- bseqb_eq. destruct (bseqb a b); split; congruence. Qed.

(* data[p] with a Go int index: None is an index-out-of-range panic *)
Definition znth (d : bytes) (p : Z) : option byte :=
  if (p <? 0)%Z then None else nth_error d (Z.to_nat p).

(* data[i:j]: None is a slice-bounds panic.  (Go allows j up to cap(data); the model is stricter, j <= len.) *)
Definition zslice (d : bytes) (i j : Z) : option bytes :=
  if ((0 <=? i) && (i <=? j) && (j <=? Z.of_nat (length d)))%Z
  then Some (firstn (Z.to_nat (j - i)) (skipn (Z.to_nat i) d)) else None.

Lemma znth_app d b r : znth (d ++ b :: r) (Z.of_nat (length d)) = Some b.
Proof.
  unfold znth. destruct (Z.ltb_spec (Z.of_nat (length d)) 0); [lia|].
  rewrite Nat2Z.id, nth_error_app2 by lia. rewrite Nat.sub_diag. reflexivity.
Qed.

Lemma zslice_mid a m r :
  zslice (a ++ m ++ r) (Z.of_nat (length a)) (Z.of_nat (length a + length m)) = Some m.
Proof.
  unfold zslice. rewrite !app_length.
  replace ((0 <=? Z.of_nat (length a)) && (Z.of_nat (length a) <=? Z.of_nat (length a + length m)) &&
    (Z.of_nat (length a + length m) <=? Z.of_nat (length a + (length m + length r))))%Z with true
    by (symmetry; rewrite !andb_true_iff, !Z.leb_le; lia).
  replace (Z.to_nat (Z.of_nat (length a + length m) - Z.of_nat (length a))) with (length m) by lia.
  rewrite Nat2Z.id, skipn_app, skipn_all, Nat.sub_diag. cbn.
  rewrite firstn_app, firstn_all, Nat.sub_diag. cbn. rewrite app_nil_r. reflexivity.
Qed.
