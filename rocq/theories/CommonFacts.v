(* Facts about package common: decimal conversion and byte removal. *)
From Verif Require Import Bytes Common.
Local Open Scope Z_scope.

(* the value of a digit byte, and the number written in decimal, most significant digit first *)
Definition dig (b : byte) : Z := Z.of_N (bN b) - 48.
Fixpoint dec_acc (acc : Z) (l : bytes) : Z := match l with [] => acc | b :: r => dec_acc (10 * acc + dig b) r end.
Definition dec (l : bytes) : Z := dec_acc 0 l.
Definition digit (b : byte) : Prop := (48 <= bN b <= 57)%N.

Lemma wrap64_range z : - 2 ^ 63 <= wrap64 z < 2 ^ 63.
Proof. unfold wrap64. pose proof (Z.mod_pos_bound (z + 2 ^ 63) (2 ^ 64)). lia. Qed.
Lemma wrap64_id z : - 2 ^ 63 <= z < 2 ^ 63 -> wrap64 z = z.
Proof. intros H. unfold wrap64. rewrite Z.mod_small by lia. lia. Qed.
Lemma wrap64_mod z : wrap64 z mod 2 ^ 64 = z mod 2 ^ 64.
Proof.
  unfold wrap64. rewrite Zminus_mod_idemp_l. f_equal. lia.
Qed.
Lemma wrap64_cong a b : a mod 2 ^ 64 = b mod 2 ^ 64 -> wrap64 a = wrap64 b.
Proof.
  intros H. unfold wrap64. f_equal. rewrite <- (Zplus_mod_idemp_l a), <- (Zplus_mod_idemp_l b), H. reflexivity.
Qed.

(* least significant digit first *)
Fixpoint ldec (l : bytes) : Z := match l with [] => 0 | b :: r => dig b + 10 * ldec r end.
Lemma ldec_snoc l b : ldec (l ++ [b]) = ldec l + 10 ^ Z.of_nat (length l) * dig b.
Proof.
  induction l as [|c l IH]; [cbn [app ldec length Z.of_nat]; rewrite Z.pow_0_r; lia|].
  cbn [app ldec]. rewrite IH. cbn [length]. rewrite Nat2Z.inj_succ, Z.pow_succ_r by lia. lia.
Qed.
Lemma dec_acc_spec l : forall acc, dec_acc acc l = acc * 10 ^ Z.of_nat (length l) + ldec (rev l).
Proof.
  induction l as [|b l IH]; intros acc; [cbn [dec_acc rev ldec length Z.of_nat]; rewrite Z.pow_0_r; lia|].
  cbn [dec_acc rev]. rewrite IH, ldec_snoc, rev_length. cbn [length].
  rewrite Nat2Z.inj_succ, Z.pow_succ_r by lia. lia.
Qed.
Lemma dec_ldec l : dec l = ldec (rev l).
Proof. unfold dec. rewrite dec_acc_spec. lia. Qed.

Lemma dec_loop_spec l : forall out ord, dec_loop l out ord = match l with [] => out | _ => wrap64 (out + ord * ldec l) end.
Proof.
  induction l as [|b r IH]; intros out ord; [reflexivity|].
  cbn [dec_loop]. rewrite IH. fold (dig b).
  destruct r as [|c r'].
  - cbn [ldec]. apply wrap64_cong. rewrite <- Zplus_mod_idemp_r, wrap64_mod, Zplus_mod_idemp_r. f_equal. lia.
  - set (r := c :: r'). cbn [ldec]. apply wrap64_cong.
    rewrite <- Zplus_mod_idemp_l, wrap64_mod, Zplus_mod_idemp_l.
    replace (out + wrap64 (dig b * ord) + wrap64 (ord * 10) * ldec r) with (wrap64 (dig b * ord) + (out + wrap64 (ord * 10) * ldec r)) by lia.
    rewrite <- Zplus_mod_idemp_l, wrap64_mod, Zplus_mod_idemp_l.
    replace (dig b * ord + (out + wrap64 (ord * 10) * ldec r)) with (wrap64 (ord * 10) * ldec r + (dig b * ord + out)) by lia.
    rewrite <- Zplus_mod_idemp_l, <- Zmult_mod_idemp_l, wrap64_mod, Zmult_mod_idemp_l, Zplus_mod_idemp_l.
    f_equal. lia.
Qed.

(* whatever the bytes, the result is the decimal value reduced to 64 bits *)
Lemma dec_to_int_wrap l : dec_to_int l = wrap64 (dec l).
Proof.
  unfold dec_to_int. rewrite dec_loop_spec, dec_ldec. destruct (rev l) eqn:E; [reflexivity|]. f_equal. lia.
Qed.

Lemma dec_bound l : Forall digit l -> 0 <= dec l < 10 ^ Z.of_nat (length l).
Proof.
  intros H. rewrite dec_ldec, <- rev_length. apply Forall_rev in H.
  induction H as [|b r Hb Hr IH]; [cbn; lia|].
  cbn [ldec length]. rewrite Nat2Z.inj_succ, Z.pow_succ_r by lia. unfold digit in Hb. unfold dig. lia.
Qed.

Lemma dec_to_int_ok l : Forall digit l -> dec l < 2 ^ 63 -> dec_to_int l = dec l.
Proof. intros H Hb. rewrite dec_to_int_wrap. apply wrap64_id. pose proof (dec_bound l H). lia. Qed.

(* removing bytes at positions counted from offset *)
Fixpoint keep (l : bytes) (ps : list Z) (k : Z) : bytes :=
  match l with
  | [] => []
  | b :: r => if existsb (Z.eqb k) ps then keep r ps (k + 1) else b :: keep r ps (k + 1)
  end.
Fixpoint increasing (lo : Z) (ps : list Z) : Prop :=
  match ps with [] => True | p :: r => lo <= p /\ increasing (p + 1) r end.

Lemma increasing_ge ps : forall lo k, increasing lo ps -> k < lo -> existsb (Z.eqb k) ps = false.
Proof.
  induction ps as [|p r IH]; intros lo k H Hk; [reflexivity|]. destruct H as [H1 H2]. cbn [existsb].
  rewrite (IH (p + 1) k H2) by lia. rewrite orb_false_r. apply Z.eqb_neq. lia.
Qed.
Lemma increasing_weaken ps : forall lo lo', increasing lo ps -> lo' <= lo -> increasing lo' ps.
Proof. destruct ps as [|p r]; cbn; [tauto|]. intros lo lo' [H1 H2] H. split; [lia|exact H2]. Qed.
Lemma keep_none l : forall k lo ps, increasing lo ps -> k + Z.of_nat (length l) <= lo -> keep l ps k = l.
Proof.
  induction l as [|b l IH]; intros k lo ps H Hk; [reflexivity|]. cbn [keep length] in *.
  rewrite (increasing_ge ps lo k H) by lia. f_equal. apply (IH _ lo); [exact H|lia].
Qed.
Lemma keep_drop l : forall k p ps, p < k -> keep l (p :: ps) k = keep l ps k.
Proof.
  induction l as [|b l IH]; intros k p ps H; [reflexivity|]. cbn [keep existsb].
  replace (k =? p) with false by (symmetry; apply Z.eqb_neq; lia). cbn [orb].
  rewrite !IH by lia. reflexivity.
Qed.

Lemma remove_loop_keep ps : forall done l i off k,
  k - i - off = Z.of_nat (length done) -> increasing k ps ->
  (forall p, In p ps -> p < k + Z.of_nat (length l)) ->
  remove_loop (done ++ l) ps i off = Some (done ++ keep l ps k).
Proof.
  induction ps as [|p r IH]; intros done l i off k Hk Hinc Hb.
  - cbn [remove_loop]. rewrite (keep_none l k (k + Z.of_nat (length l)) []); [reflexivity|exact I|lia].
  - destruct Hinc as [H1 H2]. pose proof (Hb p (or_introl eq_refl)) as Hp.
    set (n := Z.to_nat (p - k)). cbn [remove_loop].
    assert (Hn : (n < length l)%nat) by lia.
    destruct (nth_split l x00 Hn) as [a [c [El Ea]]]. set (b := nth n l x00) in *.
    assert (Hat : p - i - off = Z.of_nat (length (done ++ a))) by (rewrite app_length; lia).
    rewrite Hat.
    replace ((0 <=? Z.of_nat (length (done ++ a))) && (Z.of_nat (length (done ++ a)) + 1 <=? Z.of_nat (length (done ++ l)))) with true.
    2:{ symmetry. rewrite andb_true_iff, !Z.leb_le. rewrite !app_length. lia. }
    assert (E1 : firstn (Z.to_nat (Z.of_nat (length (done ++ a)))) (done ++ l) = done ++ a).
    { rewrite Nat2Z.id, El, app_assoc, firstn_app, firstn_all, Nat.sub_diag. cbn. apply app_nil_r. }
    assert (E2 : skipn (Z.to_nat (Z.of_nat (length (done ++ a)) + 1)) (done ++ l) = c).
    { replace (Z.to_nat (Z.of_nat (length (done ++ a)) + 1)) with (length ((done ++ a) ++ [b])) by (rewrite app_length; cbn; lia).
      rewrite El. replace (done ++ a ++ b :: c) with (((done ++ a) ++ [b]) ++ c) by (rewrite <- !app_assoc; reflexivity).
      rewrite skipn_app, skipn_all, Nat.sub_diag. reflexivity. }
    rewrite E1, E2.
    rewrite (IH (done ++ a) c (i + 1) off (p + 1)).
    + f_equal. rewrite <- app_assoc. f_equal. rewrite El.
      assert (Hcl : p = k + Z.of_nat (length a)) by (rewrite Ea; lia). clearbody b.
      clear - Hcl H2. subst p. revert k H2. induction a as [|d a IHa]; intros k H2.
      * cbn [app keep existsb length]. rewrite Z.add_0_r, Z.eqb_refl. cbn [orb]. rewrite keep_drop by lia. reflexivity.
      * cbn [app keep existsb length]. cbn [length] in H2.
        replace (k =? k + Z.of_nat (S (length a))) with false by (symmetry; apply Z.eqb_neq; lia). cbn [orb].
        rewrite (increasing_ge r _ k H2) by lia. f_equal.
        replace (k + Z.of_nat (S (length a))) with (k + 1 + Z.of_nat (length a)) in * by lia.
        apply IHa. exact H2.
    + rewrite app_length. rewrite app_length in Hat. lia.
    + exact H2.
    + intros q Hq. specialize (Hb q (or_intror Hq)). rewrite El, app_length in Hb. cbn [length] in Hb. lia.
Qed.

(* RemoveBytes with strictly increasing positions inside the slice removes exactly these bytes *)
Lemma remove_bytes_keep l ps off : increasing off ps -> (forall p, In p ps -> p < off + Z.of_nat (length l)) ->
  remove_bytes l ps off = Some (keep l ps off).
Proof. intros H1 H2. unfold remove_bytes. apply (remove_loop_keep ps [] l 0 off off); auto. cbn. lia. Qed.
