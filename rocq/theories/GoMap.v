(* Go maps with string keys (map[string]V): association lists with strictly increasing keys.
   The representation is canonical, so equality of maps is equality of lists.
   Keys are ordered like sort.Strings orders them (bytewise lexicographic). *)
From Verif Require Import Bytes.
Local Open Scope N_scope.

Fixpoint bcmp (a b : bytes) : comparison :=
  match a, b with
  | [], [] => Eq
  | [], _ :: _ => Lt
  | _ :: _, [] => Gt
  | x :: a', y :: b' => match N.compare (bN x) (bN y) with Eq => bcmp a' b' | c => c end
  end.

Definition gmap (V : Type) := list (bytes * V).

Section M.
Context {V : Type}.

(* v, ok := m[k] *)
Fixpoint mget (m : gmap V) (k : bytes) : option V :=
  match m with
  | [] => None
  | (k', v) :: r => match bcmp k k' with Eq => Some v | Lt => None | Gt => mget r k end
  end.

(* m[k] = v *)
Fixpoint mset (m : gmap V) (k : bytes) (v : V) : gmap V :=
  match m with
  | [] => [(k, v)]
  | (k', v') :: r => match bcmp k k' with Eq => (k, v) :: r | Lt => (k, v) :: (k', v') :: r | Gt => (k', v') :: mset r k v end
  end.

(* delete(m, k) *)
Fixpoint mdel (m : gmap V) (k : bytes) : gmap V :=
  match m with
  | [] => []
  | (k', v') :: r => match bcmp k k' with Eq => r | Lt => (k', v') :: r | Gt => (k', v') :: mdel r k end
  end.

Fixpoint msorted (m : gmap V) : Prop :=
  match m with
  | [] => True
  | (k, _) :: r => (forall k' v', In (k', v') r -> bcmp k k' = Lt) /\ msorted r
  end.

Lemma bcmp_refl a : bcmp a a = Eq.
Proof. induction a as [|x a IH]; cbn; [reflexivity|]. rewrite N.compare_refl. exact IH. Qed.
Lemma bcmp_eq a b : bcmp a b = Eq <-> a = b.
Proof.
  split; [|intros ->; apply bcmp_refl].
  revert b; induction a as [|x a IH]; intros [|y b]; cbn; try discriminate; auto.
  destruct (N.compare (bN x) (bN y)) eqn:E; try discriminate.
  apply N.compare_eq in E. intros H. f_equal; [apply bN_inj; exact E|auto].
Qed.
Lemma bcmp_antisym a b : bcmp b a = CompOpp (bcmp a b).
Proof.
  revert b; induction a as [|x a IH]; intros [|y b]; cbn; auto.
  rewrite (N.compare_antisym (bN x) (bN y)). destruct (N.compare (bN x) (bN y)); cbn; auto.
Qed.
Lemma bcmp_lt_trans a b c : bcmp a b = Lt -> bcmp b c = Lt -> bcmp a c = Lt.
Proof.
  revert b c; induction a as [|x a IH]; intros [|y b] [|z c]; cbn; try discriminate; auto.
  destruct (N.compare_spec (bN x) (bN y)) as [E|E|E]; try discriminate;
  destruct (N.compare_spec (bN y) (bN z)) as [F|F|F]; try discriminate.
  - rewrite E, F, N.compare_refl. apply IH.
  - intros _ _. destruct (N.compare_spec (bN x) (bN z)); try reflexivity; lia.
  - intros _ _. destruct (N.compare_spec (bN x) (bN z)); try reflexivity; lia.
  - intros _ _. destruct (N.compare_spec (bN x) (bN z)); try reflexivity; lia.
Qed.
Lemma bcmp_gt_lt a b : bcmp a b = Gt <-> bcmp b a = Lt.
Proof. rewrite (bcmp_antisym a b). destruct (bcmp a b); cbn; split; congruence. Qed.

Lemma mget_In m k v : mget m k = Some v -> In (k, v) m.
Proof.
  induction m as [|[k' v'] r IH]; cbn; [discriminate|].
  destruct (bcmp k k') eqn:E; try discriminate.
  - apply bcmp_eq in E. intros H. left. congruence.
  - intros H. right. auto.
Qed.
Lemma In_mget m k v : msorted m -> In (k, v) m -> mget m k = Some v.
Proof.
  induction m as [|[k' v'] r IH]; cbn; [tauto|]. intros [H1 H2] [H|H].
  - injection H as <- <-. rewrite bcmp_refl. reflexivity.
  - specialize (H1 _ _ H). rewrite (proj2 (bcmp_gt_lt k k') H1). auto.
Qed.
Lemma mset_In m k v k' v' : In (k', v') (mset m k v) -> (k' = k /\ v' = v) \/ In (k', v') m.
Proof.
  induction m as [|[k2 v2] r IH]; cbn.
  - intros [H|[]]. injection H as <- <-. auto.
  - destruct (bcmp k k2) eqn:E; cbn.
    + intros [H|H]; [injection H as <- <-; auto|auto].
    + intros [H|H]; [injection H as <- <-; auto|auto].
    + intros [H|H]; [auto|]. destruct (IH H); auto.
Qed.
Lemma mset_sorted m k v : msorted m -> msorted (mset m k v).
Proof.
  induction m as [|[k2 v2] r IH]; cbn; [intros _; split; [intros ? ? []|exact I]|].
  intros [H1 H2]. destruct (bcmp k k2) eqn:E; cbn.
  - apply bcmp_eq in E. subst k2. split; assumption.
  - split; [|split; assumption]. intros k' v' [H|H].
    + injection H as <- <-. exact E.
    + eapply bcmp_lt_trans; [exact E|eauto].
  - split; [|auto]. intros k' v' H. destruct (mset_In _ _ _ _ _ H) as [[-> ->]|H'].
    + apply bcmp_gt_lt. exact E.
    + eauto.
Qed.
Lemma mget_mset_same m k v : mget (mset m k v) k = Some v.
Proof.
  induction m as [|[k2 v2] r IH]; cbn; [rewrite bcmp_refl; reflexivity|].
  destruct (bcmp k k2) eqn:E; cbn; rewrite ?bcmp_refl, ?E; auto.
Qed.
Lemma mget_mset_other m k v k' : k' <> k -> mget (mset m k v) k' = mget m k'.
Proof.
  intros Hn. induction m as [|[k2 v2] r IH]; cbn.
  - destruct (bcmp k' k) eqn:E; auto. apply bcmp_eq in E. congruence.
  - destruct (bcmp k k2) eqn:E; cbn.
    + apply bcmp_eq in E. subst k2. destruct (bcmp k' k) eqn:F; auto. apply bcmp_eq in F. congruence.
    + destruct (bcmp k' k) eqn:F.
      * apply bcmp_eq in F. congruence.
      * rewrite (bcmp_lt_trans _ _ _ F E). reflexivity.
      * reflexivity.
    + destruct (bcmp k' k2); auto.
Qed.
Lemma mget_below m k : (forall k' v', In (k', v') m -> bcmp k k' = Lt) -> mget m k = None.
Proof. destruct m as [|[k' v'] r]; cbn; [reflexivity|]. intros H. rewrite (H k' v' (or_introl eq_refl)). reflexivity. Qed.
Lemma mdel_In m k k' v' : In (k', v') (mdel m k) -> In (k', v') m.
Proof.
  induction m as [|[k2 v2] r IH]; cbn; [tauto|].
  destruct (bcmp k k2); cbn; tauto.
Qed.
Lemma mdel_sorted m k : msorted m -> msorted (mdel m k).
Proof.
  induction m as [|[k2 v2] r IH]; cbn; [tauto|]. intros [H1 H2].
  destruct (bcmp k k2); cbn; auto. split; [|auto]. intros k' v' H. apply (H1 k' v'). eapply mdel_In; eauto.
Qed.
Lemma mget_mdel_same m k : msorted m -> mget (mdel m k) k = None.
Proof.
  induction m as [|[k2 v2] r IH]; cbn; [reflexivity|]. intros [H1 H2].
  destruct (bcmp k k2) eqn:E; cbn.
  - apply bcmp_eq in E. subst k2. apply mget_below. exact H1.
  - rewrite E. reflexivity.
  - rewrite E. auto.
Qed.
Lemma mget_mdel_other m k k' : msorted m -> k' <> k -> mget (mdel m k) k' = mget m k'.
Proof.
  intros Hs Hn. induction m as [|[k2 v2] r IH]; cbn; [reflexivity|]. destruct Hs as [H1 H2].
  destruct (bcmp k k2) eqn:E; cbn; auto.
  - apply bcmp_eq in E. subst k2. destruct (bcmp k' k) eqn:F; auto.
    + apply bcmp_eq in F. congruence.
    + apply mget_below. intros a b Hab. eapply bcmp_lt_trans; [exact F|eauto].
  - destruct (bcmp k' k2); auto.
Qed.
(* deleting a key that was just added *)
Lemma mdel_absent m k : mget m k = None -> mdel m k = m.
Proof.
  induction m as [|[k2 v2] r IH]; cbn; [reflexivity|].
  destruct (bcmp k k2) eqn:E; try discriminate; auto. intros H. rewrite IH; auto.
Qed.
Lemma mdel_mset_absent m k v : mget m k = None -> mdel (mset m k v) k = m.
Proof.
  induction m as [|[k2 v2] r IH]; cbn; [rewrite bcmp_refl; reflexivity|].
  destruct (bcmp k k2) eqn:E; cbn; try discriminate; rewrite ?bcmp_refl, ?E; auto.
  intros H. rewrite IH; auto.
Qed.
(* two sorted maps with the same bindings are equal *)
Lemma msorted_ext m1 : forall m2, msorted m1 -> msorted m2 -> (forall k, mget m1 k = mget m2 k) -> m1 = m2.
Proof.
  induction m1 as [|[k v] r IH]; intros [|[k' v'] r'] S1 S2 H; auto.
  - specialize (H k'). cbn in H. rewrite bcmp_refl in H. discriminate.
  - specialize (H k). cbn in H. rewrite bcmp_refl in H. discriminate.
  - destruct S1 as [A1 B1]. destruct S2 as [A2 B2].
    assert (k = k').
    { pose proof (H k) as Hk. pose proof (H k') as Hk'. cbn in Hk, Hk'. rewrite bcmp_refl in Hk, Hk'.
      destruct (bcmp k k') eqn:E.
      - apply bcmp_eq. exact E.
      - discriminate.
      - apply bcmp_gt_lt in E. rewrite E in Hk'. discriminate. }
    subst k'. pose proof (H k) as Hk. cbn in Hk. rewrite bcmp_refl in Hk. injection Hk as <-.
    f_equal. apply IH; auto. intros k2. specialize (H k2). cbn in H.
    destruct (bcmp k2 k) eqn:E; auto.
    + apply bcmp_eq in E. subst k2. rewrite !mget_below; auto.
    + rewrite !mget_below; auto; intros; eapply bcmp_lt_trans; eauto.
Qed.
Lemma mset_nonempty m k v : mset m k v <> [].
Proof. destruct m as [|[k' v'] r]; cbn; [discriminate|]. destruct (bcmp k k'); discriminate. Qed.
End M.
