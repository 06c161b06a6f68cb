(* Go's bufio.Reader, the part used by octetcounting/scanner.go: NewReaderSize, ReadByte, UnreadByte, Peek, Discard.
   bufio is the Go standard library (bufio/bufio.go), it is not part of /repo; it is modelled because the scanner
   relies on its treatment of errors, partial reads and the buffer size. *)
From Verif Require Import Bytes.
Local Open Scope Z_scope.

(* io.Reader: the results of successive calls of Read.  A call with a slice shorter than the chunk returns the first
   part; after the last event Read returns 0, io.EOF for ever.  Every behaviour allowed by io.Reader's contract over a
   finite number of calls is such a list: empty reads, data together with an error, data after an error. *)
Inductive rerr := REOF | RNoProgress | ROther (code : N).
Definition reader := list (bytes * option rerr).
Definition rd_read (len : Z) (rd : reader) : bytes * option rerr * reader :=
  match rd with
  | [] => ([], Some REOF, [])
  | (c, e) :: r => if Z.of_nat (length c) <=? len then (c, e, r)
                   else (firstn (Z.to_nat len) c, None, (skipn (Z.to_nat len) c, e) :: r)
  end.

(* buf[r:w], r, lastByte (None: -1), err, len(buf), rd *)
Record bufio := Bufio { f_un : bytes; f_r : Z; f_last : option byte; f_err : option rerr; f_size : Z; f_rd : reader }.
Definition f_buffered (b : bufio) : Z := Z.of_nat (length (f_un b)).

(* bufio.NewReaderSize on a reader that is not itself a *bufio.Reader; make with a huge size is not modelled *)
Definition new_reader_size (rd : reader) (size : Z) : bufio := Bufio [] 0 None None (Z.max size 16) rd.

(* the loop of bufio.Reader.fill: at most k = maxConsecutiveEmptyReads empty reads *)
Fixpoint fill_loop (k : nat) (len : Z) (rd : reader) : bytes * option rerr * reader :=
  match k with
  | O => ([], Some RNoProgress, rd)
  | S k' => match rd_read len rd with
            | (c, e, rd') => match e with
                             | Some _ => (c, e, rd')
                             | None => match c with [] => fill_loop k' len rd' | _ => (c, None, rd') end end
            end
  end.
(* bufio.Reader.fill; None: panic "tried to fill full buffer" *)
Definition fill (b : bufio) : option bufio :=
  if f_size b <=? f_buffered b then None
  else match fill_loop 100 (f_size b - f_buffered b) (f_rd b) with
       | (c, e, rd') => Some (Bufio (f_un b ++ c) 0 (f_last b) (match e with Some _ => e | None => f_err b end) (f_size b) rd')
       end.

Definition clear_err (b : bufio) : bufio := Bufio (f_un b) (f_r b) (f_last b) None (f_size b) (f_rd b).
Definition set_last (l : option byte) (b : bufio) : bufio := Bufio (f_un b) (f_r b) l (f_err b) (f_size b) (f_rd b).

(* a bound on the number of iterations of the loops below *)
Definition rd_size (rd : reader) : nat := fold_right (fun ce n => (S (length (fst ce)) + n)%nat) 0%nat rd.

(* bufio.Reader.ReadByte; the outer None: panic or fuel exhausted, the inner None: an error was returned *)
Fixpoint read_byte_loop (fuel : nat) (b : bufio) : option (option byte * bufio) :=
  match fuel with
  | O => None
  | S f => match f_un b with
           | c :: u => Some (Some c, Bufio u (f_r b + 1) (Some c) (f_err b) (f_size b) (f_rd b))
           | [] => match f_err b with
                   | Some _ => Some (None, clear_err b)
                   | None => match fill b with Some b' => read_byte_loop f b' | None => None end
                   end
           end
  end.
Definition read_byte (b : bufio) := read_byte_loop 3 b.

(* bufio.Reader.UnreadByte (its error is ignored by the scanner) *)
Definition unread_byte (b : bufio) : bufio :=
  match f_last b with
  | None => b
  | Some c => if (f_r b =? 0) && (0 <? f_r b + f_buffered b) then b
              else if 0 <? f_r b then Bufio (c :: f_un b) (f_r b - 1) None (f_err b) (f_size b) (f_rd b)
              else Bufio [c] 0 None (f_err b) (f_size b) (f_rd b)
  end.

(* bufio.Reader.Peek; true: err == nil *)
Fixpoint peek_loop (fuel : nat) (n : Z) (b : bufio) : option bufio :=
  if (f_buffered b <? n) && (f_buffered b <? f_size b) && (match f_err b with None => true | Some _ => false end) then
    match fuel with
    | O => None
    | S f => match fill b with Some b' => peek_loop f n b' | None => None end
    end
  else Some b.
Definition peek (n : Z) (b : bufio) : option (bytes * bool * bufio) :=
  if n <? 0 then Some ([], false, b)
  else match peek_loop (S (S (rd_size (f_rd b)))) n (set_last None b) with
       | None => None
       | Some b => if f_size b <? n then Some (f_un b, false, b)
                   else if f_buffered b <? n then Some (f_un b, false, clear_err b)
                   else Some (firstn (Z.to_nat n) (f_un b), true, b)
       end.

(* bufio.Reader.Discard *)
Fixpoint discard_loop (fuel : nat) (n : Z) (b : bufio) : option bufio :=
  match fuel with
  | O => None
  | S f =>
    match (if f_buffered b =? 0 then fill b else Some b) with
    | None => None
    | Some b =>
        let skip := Z.min (f_buffered b) n in
        let b' := Bufio (skipn (Z.to_nat skip) (f_un b)) (f_r b + skip) (f_last b) (f_err b) (f_size b) (f_rd b) in
        if n - skip =? 0 then Some b'
        else match f_err b' with Some _ => Some (clear_err b') | None => discard_loop f (n - skip) b' end
    end
  end.
Definition discard (n : Z) (b : bufio) : option bufio :=
  if n <=? 0 then Some b else discard_loop (S (S (rd_size (f_rd b)))) n (set_last None b).

(* ---------- what a bufio.Reader delivers ---------- *)
(* bytes, and points where a read error (or 100 empty reads in a row) is reported; after the end, errors for ever *)
Inductive item := IByte (b : byte) | IErr.
Fixpoint items (k : nat) (rd : reader) : list item :=
  match rd with
  | [] => []
  | (c, e) :: r =>
      match e with
      | Some _ => map IByte c ++ IErr :: items 100 r
      | None => match c with
                | [] => match k with S (S k') => items (S k') r | _ => IErr :: items 100 r end
                | _ => map IByte c ++ items 100 r end
      end
  end.
Definition delivered (rd : reader) : list item := items 100 rd.
Definition abs (b : bufio) : list item := map IByte (f_un b) ++ (match f_err b with Some _ => [IErr] | None => [] end) ++ items 100 (f_rd b).

Lemma items_bytes k c r : c <> [] -> items k ((c, None) :: r) = map IByte c ++ items 100 r.
Proof. destruct c; [congruence|reflexivity]. Qed.
Lemma items_err k c e r : items k ((c, Some e) :: r) = map IByte c ++ IErr :: items 100 r.
Proof. destruct c; reflexivity. Qed.
Lemma items_chunk k c e len r : (0 < len) -> (Z.of_nat (length c) > len) ->
  map IByte (firstn (Z.to_nat len) c) ++ items 100 ((skipn (Z.to_nat len) c, e) :: r) = items k ((c, e) :: r).
Proof.
  intros H1 H2. assert (Hs : skipn (Z.to_nat len) c <> []).
  { intros E. apply (f_equal (@length byte)) in E. rewrite skipn_length in E. cbn in E. lia. }
  assert (Hc : c <> []) by (intros ->; cbn in H2; lia).
  destruct e as [e|].
  - rewrite !items_err. rewrite app_assoc, <- map_app, firstn_skipn. reflexivity.
  - rewrite !items_bytes by assumption. rewrite app_assoc, <- map_app, firstn_skipn. reflexivity.
Qed.

(* the same endless stream *)
Definition eqv (l1 l2 : list item) : Prop := forall n, nth n l1 IErr = nth n l2 IErr.
Lemma eqv_refl l : eqv l l. Proof. intros n. reflexivity. Qed.
Lemma eqv_sym l1 l2 : eqv l1 l2 -> eqv l2 l1. Proof. intros H n. symmetry. apply H. Qed.
Lemma eqv_trans l1 l2 l3 : eqv l1 l2 -> eqv l2 l3 -> eqv l1 l3. Proof. intros H1 H2 n. rewrite H1. apply H2. Qed.
Lemma eqv_cons x l1 l2 : eqv l1 l2 -> eqv (x :: l1) (x :: l2). Proof. intros H [|n]; [reflexivity|]. apply (H n). Qed.
Lemma eqv_app p l1 l2 : eqv l1 l2 -> eqv (p ++ l1) (p ++ l2).
Proof. intros H. induction p; [exact H|]. cbn. apply eqv_cons. exact IHp. Qed.
Lemma eqv_end : eqv [IErr] []. Proof. intros [|[|n]]; reflexivity. Qed.
Lemma eqv_inv x l1 y l2 : eqv (x :: l1) (y :: l2) -> x = y /\ eqv l1 l2.
Proof. intros H. split; [apply (H 0%nat)|intros n; apply (H (S n))]. Qed.
Lemma eqv_nil x l : eqv (x :: l) [] -> x = IErr /\ eqv l [].
Proof. intros H. split; [apply (H 0%nat)|intros n; specialize (H (S n)); cbn in H; rewrite H; destruct n; reflexivity]. Qed.

Lemma rd_size_cons c e r : rd_size ((c, e) :: r) = (S (length c) + rd_size r)%nat. Proof. reflexivity. Qed.
(* fill moves the beginning of what the reader delivers into the buffer *)
Lemma fill_loop_spec k : forall len rd c e rd', 0 < len -> (0 < k)%nat -> fill_loop k len rd = (c, e, rd') ->
  eqv (map IByte c ++ (match e with Some _ => [IErr] | None => [] end) ++ items 100 rd') (items k rd)
  /\ Z.of_nat (length c) <= len /\ (c = [] -> e <> None) /\ (rd_size rd' + length c <= rd_size rd)%nat.
Proof.
  induction k as [|k IH]; intros len rd c e rd' Hl Hk H; [lia|]. cbn [fill_loop] in H. destruct rd as [|[c0 e0] r].
  - cbn in H. injection H as <- <- <-. cbn. repeat split; try lia; try discriminate. apply eqv_end.
  - cbn [rd_read] in H. destruct (Z.leb_spec (Z.of_nat (length c0)) len) as [Hc|Hc].
    + destruct e0 as [e0|].
      * injection H as <- <- <-. rewrite rd_size_cons, items_err. cbn [app]. repeat split; try lia; try discriminate.
      * destruct c0 as [|b0 c0].
        -- destruct k as [|k].
           ++ cbn in H. injection H as <- <- <-. rewrite rd_size_cons. cbn. repeat split; try lia; try discriminate.
           ++ apply IH in H; [|lia|lia]. destruct H as [H1 [H2 [H3 H4]]]. rewrite rd_size_cons. cbn [items length]. repeat split; auto; lia.
        -- injection H as <- <- <-. rewrite rd_size_cons. repeat split; try lia; try discriminate.
    + assert (Hf : firstn (Z.to_nat len) c0 <> []).
      { intros E. apply (f_equal (@length byte)) in E. rewrite firstn_length in E. cbn in E. lia. }
      assert (Hr : fill_loop (S k) len ((c0, e0) :: r) = (firstn (Z.to_nat len) c0, None, (skipn (Z.to_nat len) c0, e0) :: r)).
      { cbn [fill_loop rd_read]. destruct (Z.leb_spec (Z.of_nat (length c0)) len); [lia|]. destruct (firstn (Z.to_nat len) c0); [congruence|reflexivity]. }
      assert (E : (firstn (Z.to_nat len) c0, None, (skipn (Z.to_nat len) c0, e0) :: r) = (c, e, rd')).
      { destruct (firstn (Z.to_nat len) c0); [congruence|exact H]. }
      injection E as <- <- <-. rewrite !rd_size_cons, skipn_length, firstn_length. repeat split; try lia; try congruence.
      cbn [app]. rewrite (items_chunk (S k)) by lia. apply eqv_refl.
Qed.
Lemma fill_spec b b' : f_err b = None -> fill b = Some b' ->
  eqv (abs b') (abs b) /\ f_size b' = f_size b /\ f_last b' = f_last b /\ f_buffered b' <= f_size b'
  /\ (f_err b' = None -> f_buffered b < f_buffered b')
  /\ (exists c, f_un b' = f_un b ++ c) /\ (rd_size (f_rd b') + length (f_un b') <= rd_size (f_rd b) + length (f_un b))%nat.
Proof.
  unfold fill, abs. intros He. rewrite He. destruct (Z.leb_spec (f_size b) (f_buffered b)) as [H|H]; [discriminate|].
  destruct (fill_loop 100 (f_size b - f_buffered b) (f_rd b)) as [[c e] rd'] eqn:E. intros Eb. injection Eb as <-.
  apply fill_loop_spec in E; [|lia|lia]. destruct E as [E1 [E2 [E3 E4]]]. unfold f_buffered in *. cbn [f_un f_err f_rd f_size f_last]. rewrite !app_length.
  replace (match e with Some _ => e | None => None end) with e by (destruct e; reflexivity). repeat split; try lia.
  - rewrite map_app, <- app_assoc. apply eqv_app. cbn [app]. exact E1.
  - intros ->. destruct c; [destruct (E3 eq_refl eq_refl)|cbn [length]; lia].
  - eauto.
Qed.
Lemma fill_some b : f_buffered b < f_size b -> exists b', fill b = Some b'.
Proof.
  intros H. unfold fill. destruct (Z.leb_spec (f_size b) (f_buffered b)); [lia|]. destruct (fill_loop _ _ _) as [[c e] rd']. eauto.
Qed.

(* reader states met by the scanner: the buffer is not over-full, and has room *)
Definition ok (b : bufio) : Prop := 0 < f_size b /\ f_buffered b <= f_size b /\ 0 <= f_r b.
(* a measure of what is left *)
Definition left (b : bufio) : nat := (length (f_un b) + rd_size (f_rd b))%nat.
Definition next (l : list item) : option byte * list item :=
  match l with IByte b :: r => (Some b, r) | IErr :: r => (None, r) | [] => (None, []) end.
Lemma next_eqv l1 l2 : eqv l1 l2 -> fst (next l1) = fst (next l2) /\ eqv (snd (next l1)) (snd (next l2)).
Proof.
  destruct l1 as [|x l1], l2 as [|y l2]; intros H.
  - split; [reflexivity|apply eqv_refl].
  - apply eqv_sym, eqv_nil in H as [-> H]. cbn. split; [reflexivity|apply eqv_sym; exact H].
  - apply eqv_nil in H as [-> H]. cbn. split; [reflexivity|exact H].
  - apply eqv_inv in H as [-> H]. destruct y; cbn; auto.
Qed.

(* ReadByte *)
Lemma read_byte_spec b : ok b -> exists b', read_byte b = Some (fst (next (abs b)), b') /\ eqv (abs b') (snd (next (abs b)))
  /\ ok b' /\ f_size b' = f_size b /\ (left b' <= left b)%nat
  /\ (forall c, fst (next (abs b)) = Some c -> f_last b' = Some c /\ 0 < f_r b' /\ f_buffered b' < f_size b' /\ (left b' < left b)%nat).
Proof.
  intros [O1 [O2 O3]]. unfold read_byte.
  assert (Hc : forall f b, ok b -> forall c u, f_un b = c :: u -> exists b', read_byte_loop (S f) b = Some (fst (next (abs b)), b') /\ eqv (abs b') (snd (next (abs b)))
     /\ ok b' /\ f_size b' = f_size b /\ (left b' <= left b)%nat
     /\ (forall c, fst (next (abs b)) = Some c -> f_last b' = Some c /\ 0 < f_r b' /\ f_buffered b' < f_size b' /\ (left b' < left b)%nat)).
  { intros f b0 [K1 [K2 K3]] c u E. cbn [read_byte_loop]. rewrite E. assert (Ea : abs b0 = IByte c :: map IByte u ++ (match f_err b0 with Some _ => [IErr] | None => [] end) ++ items 100 (f_rd b0)) by (unfold abs; rewrite E; reflexivity).
    rewrite Ea. cbn [next fst snd]. eexists. split; [reflexivity|].
    unfold ok, left, f_buffered in *. cbn [f_un f_r f_last f_err f_size f_rd]. rewrite E in *. cbn [length] in *.
    split; [apply eqv_refl|]. repeat split; try lia. injection H as ->. reflexivity. }
  assert (He : forall f b, ok b -> f_un b = [] -> f_err b <> None -> exists b', read_byte_loop (S f) b = Some (fst (next (abs b)), b') /\ eqv (abs b') (snd (next (abs b)))
     /\ ok b' /\ f_size b' = f_size b /\ (left b' <= left b)%nat
     /\ (forall c, fst (next (abs b)) = Some c -> f_last b' = Some c /\ 0 < f_r b' /\ f_buffered b' < f_size b' /\ (left b' < left b)%nat)).
  { intros f b0 [K1 [K2 K3]] E Er. cbn [read_byte_loop]. rewrite E. destruct (f_err b0) as [e|] eqn:Ee; [|congruence]. assert (Ea : abs b0 = IErr :: items 100 (f_rd b0)) by (unfold abs; rewrite E, Ee; reflexivity).
    rewrite Ea. cbn [next fst snd]. eexists. split; [reflexivity|]. unfold ok, left, f_buffered, clear_err in *. unfold abs. cbn [f_un f_r f_last f_err f_size f_rd]. rewrite E in *.
    cbn [map app length] in *. split; [apply eqv_refl|]. repeat split; try lia; discriminate. }
  destruct (f_un b) as [|c u] eqn:Eu.
  - destruct (f_err b) as [e|] eqn:Ee; [apply He; [unfold ok; lia|exact Eu|congruence]|].
    destruct (fill_some b) as [b1 E1]. { unfold f_buffered. rewrite Eu. cbn. lia. }
    assert (E2 : read_byte_loop 3 b = read_byte_loop 2 b1) by (cbn [read_byte_loop]; rewrite Eu, Ee, E1; reflexivity).
    rewrite E2. pose proof (fill_spec b b1 Ee E1) as [F1 [F2 [F3 [F4 [F5 [_ F6]]]]]].
    assert (Hok : ok b1). { unfold fill in E1. destruct (f_size b <=? f_buffered b); [discriminate|]. destruct (fill_loop _ _ _) as [[c0 e0] rd0]. injection E1 as <-. unfold ok. cbn in *. lia. }
    assert (Hx : exists b', read_byte_loop 2 b1 = Some (fst (next (abs b1)), b') /\ eqv (abs b') (snd (next (abs b1)))
     /\ ok b' /\ f_size b' = f_size b1 /\ (left b' <= left b1)%nat
     /\ (forall c, fst (next (abs b1)) = Some c -> f_last b' = Some c /\ 0 < f_r b' /\ f_buffered b' < f_size b' /\ (left b' < left b1)%nat)).
    { destruct (f_un b1) as [|c u] eqn:Eu1.
      - apply He; [exact Hok|exact Eu1|]. intros Hn. specialize (F5 Hn). unfold f_buffered in F5. rewrite Eu, Eu1 in F5. cbn in F5. lia.
      - eapply Hc; eauto. }
    destruct Hx as [b' [X1 [X2 [X3 [X4 [X5 X6]]]]]]. destruct (next_eqv _ _ F1) as [N1 N2]. exists b'. rewrite <- N1. split; [exact X1|].
    split; [eapply eqv_trans; eauto|]. split; [exact X3|]. split; [congruence|]. unfold left in *. split; [lia|]. intros c Hcc. destruct (X6 c Hcc) as [? [? [? ?]]]. repeat split; auto; lia.
  - eapply Hc; [unfold ok; lia|exact Eu].
Qed.
(* UnreadByte right after a successful ReadByte *)
Lemma unread_spec b c : ok b -> f_last b = Some c -> 0 < f_r b -> f_buffered b < f_size b ->
  abs (unread_byte b) = IByte c :: abs b /\ ok (unread_byte b) /\ f_size (unread_byte b) = f_size b /\ left (unread_byte b) = S (left b).
Proof.
  intros [O1 [O2 O3]] Hl Hr Hs. unfold unread_byte. rewrite Hl. destruct (Z.eqb_spec (f_r b) 0); [lia|]. cbn [andb].
  destruct (Z.ltb_spec 0 (f_r b)); [|lia]. unfold abs, ok, left, f_buffered in *. cbn [f_un f_r f_last f_err f_size f_rd map app length]. repeat split; lia.
Qed.

(* Peek and Discard *)
(* the first n items, when all of them are bytes; otherwise the bytes before the first error *)
Fixpoint take_bytes (n : nat) (l : list item) : bytes * bool * list item :=
  match n with
  | O => ([], true, l)
  | S n => match l with
           | IByte b :: r => match take_bytes n r with (t, k, r') => (b :: t, k, r') end
           | _ => ([], false, l) end
  end.
Lemma take_eqv n : forall l1 l2, eqv l1 l2 -> fst (take_bytes n l1) = fst (take_bytes n l2) /\ eqv (snd (take_bytes n l1)) (snd (take_bytes n l2)).
Proof.
  induction n as [|n IH]; intros l1 l2 H; [split; [reflexivity|exact H]|]. cbn [take_bytes].
  destruct l1 as [|[b1|] l1], l2 as [|[b2|] l2]; try (pose proof (H 0%nat) as H0; cbn in H0; discriminate); cbn [fst snd]; try (split; [reflexivity|exact H]).
  apply eqv_inv in H as [E H]. injection E as ->. destruct (IH _ _ H) as [I1 I2].
  destruct (take_bytes n l1) as [[t1 k1] r1], (take_bytes n l2) as [[t2 k2] r2]. cbn [fst snd] in *. injection I1 as -> ->. auto.
Qed.
Lemma take_map u : forall n r, (n <= length u)%nat -> take_bytes n (map IByte u ++ r) = (firstn n u, true, map IByte (skipn n u) ++ r).
Proof.
  induction u as [|b u IH]; intros [|n] r H; cbn in *; try lia; try reflexivity. rewrite IH by lia. reflexivity.
Qed.
Lemma take_map_err u : forall n r, (length u < n)%nat -> take_bytes n (map IByte u ++ IErr :: r) = (u, false, IErr :: r).
Proof.
  induction u as [|b u IH]; intros [|n] r H; cbn in *; try lia; try reflexivity. rewrite IH by lia. reflexivity.
Qed.
Lemma peek_loop_spec fuel : forall n b, ok b -> (left b + (match f_err b with None => 1 | Some _ => 0 end) <= fuel + length (f_un b))%nat ->
  exists b', peek_loop fuel n b = Some b' /\ eqv (abs b') (abs b) /\ ok b' /\ f_size b' = f_size b /\ f_last b' = f_last b /\ (left b' <= left b)%nat
    /\ (f_buffered b' < n -> f_buffered b' < f_size b' -> f_err b' <> None).
Proof.
  induction fuel as [|f IH]; intros n b Hok Hf; cbn [peek_loop];
    destruct ((f_buffered b <? n) && (f_buffered b <? f_size b) && match f_err b with None => true | Some _ => false end) eqn:E.
  - apply andb_true_iff in E as [E E3]. destruct (f_err b); [discriminate|]. unfold left in Hf. lia.
  - exists b. split; [reflexivity|]. split; [apply eqv_refl|]. repeat split; auto; try apply Hok. intros H1 H2 H3.
    apply Z.ltb_lt in H1, H2. rewrite H1, H2, H3 in E. discriminate.
  - apply andb_true_iff in E as [E E3]. apply andb_true_iff in E as [E1 E2]. apply Z.ltb_lt in E1, E2. destruct (f_err b) eqn:Ee; [discriminate|].
    destruct (fill_some b E2) as [b1 Eb]. rewrite Eb. pose proof (fill_spec b b1 Ee Eb) as [F1 [F2 [F3 [F4 [F5 [[c Fc] F6]]]]]].
    assert (Fl : (length (f_un b) <= length (f_un b1))%nat) by (rewrite Fc, app_length; lia).
    assert (Hok1 : ok b1). { destruct Hok as [K1 [K2 K3]]. unfold fill in Eb. destruct (f_size b <=? f_buffered b); [discriminate|]. destruct (fill_loop _ _ _) as [[c0 e0] rd0]. injection Eb as <-. unfold ok. cbn in *. lia. }
    destruct (IH n b1 Hok1) as [b' [P1 [P2 [P3 [P4 [P5 [P6 P7]]]]]]].
    { unfold left, f_buffered in *. destruct (f_err b1); [lia|]. specialize (F5 eq_refl). lia. }
    exists b'. split; [exact P1|]. split; [eapply eqv_trans; eauto|]. split; [exact P3|]. split; [congruence|]. split; [congruence|]. split; [unfold left in *; lia|]. exact P7.
  - exists b. split; [reflexivity|]. split; [apply eqv_refl|]. repeat split; auto; try apply Hok. intros H1 H2 H3.
    apply Z.ltb_lt in H1, H2. rewrite H1, H2, H3 in E. discriminate.
Qed.
(* Peek of more bytes than the buffer holds: those that fit, and an error *)
Lemma peek_over n b : ok b -> f_size b < n ->
  exists b', peek n b = Some (fst (fst (take_bytes (Z.to_nat (f_size b)) (abs b))), false, b').
Proof.
  intros Hok Hn. unfold peek. destruct (Z.ltb_spec n 0); [destruct Hok; lia|].
  destruct (peek_loop_spec (S (S (rd_size (f_rd b)))) n (set_last None b)) as [b1 [P1 [P2 [P3 [P4 [P5 [P6 P7]]]]]]].
  { exact Hok. }
  { unfold left, set_last. cbn [f_un f_rd f_err]. destruct (f_err b); lia. }
  rewrite P1. change (abs (set_last None b)) with (abs b) in P2. change (f_size (set_last None b)) with (f_size b) in P4.
  destruct (Z.ltb_spec (f_size b1) n); [|lia]. exists b1. destruct (take_eqv (Z.to_nat (f_size b)) _ _ P2) as [T1 _].
  assert (Hle : f_buffered b1 <= f_size b1) by apply P3. destruct (Z.eq_dec (f_buffered b1) (f_size b1)) as [He|He].
  - assert (E : take_bytes (Z.to_nat (f_size b)) (abs b1) = (firstn (Z.to_nat (f_size b)) (f_un b1), true, map IByte (skipn (Z.to_nat (f_size b)) (f_un b1)) ++ (match f_err b1 with Some _ => [IErr] | None => [] end) ++ items 100 (f_rd b1))).
    { unfold abs. apply take_map. unfold f_buffered in He. lia. }
    rewrite E in T1. cbn [fst] in T1. rewrite <- T1. cbn [fst]. rewrite firstn_all2; [reflexivity|]. unfold f_buffered in He. lia.
  - assert (Hx : f_err b1 <> None) by (apply P7; lia). destruct (f_err b1) as [e|] eqn:Ee; [|congruence].
    assert (E : take_bytes (Z.to_nat (f_size b)) (abs b1) = (f_un b1, false, IErr :: items 100 (f_rd b1))).
    { unfold abs. rewrite Ee. cbn [app]. apply take_map_err. unfold f_buffered in *. lia. }
    rewrite E in T1. cbn [fst] in T1. rewrite <- T1. reflexivity.
Qed.
(* Peek followed by Discard of the same count, as in scanSyslogMsg *)
Lemma peek_spec n b : ok b -> 0 <= n <= f_size b ->
  exists b', peek n b = Some (fst (take_bytes (Z.to_nat n) (abs b)), b') /\
    (snd (fst (take_bytes (Z.to_nat n) (abs b))) = true -> exists b'', discard n b' = Some b'' /\ eqv (abs b'') (snd (take_bytes (Z.to_nat n) (abs b)))
        /\ ok b'' /\ f_size b'' = f_size b /\ (left b'' + Z.to_nat n <= left b)%nat).
Proof.
  intros Hok Hn. unfold peek. destruct (Z.ltb_spec n 0); [lia|].
  destruct (peek_loop_spec (S (S (rd_size (f_rd b)))) n (set_last None b)) as [b1 [P1 [P2 [P3 [P4 [P5 [P6 P7]]]]]]].
  { exact Hok. }
  { unfold left, set_last. cbn [f_un f_rd f_err]. destruct (f_err b); lia. }
  rewrite P1. change (abs (set_last None b)) with (abs b) in P2. change (f_size (set_last None b)) with (f_size b) in P4. change (left (set_last None b)) with (left b) in P6.
  destruct (Z.ltb_spec (f_size b1) n); [lia|].
  destruct (take_eqv (Z.to_nat n) _ _ P2) as [T1 T2].
  destruct (Z.ltb_spec (f_buffered b1) n) as [Hb|Hb].
  - assert (He : f_err b1 <> None) by (apply P7; lia). destruct (f_err b1) as [e|] eqn:Ee; [|congruence].
    assert (E : take_bytes (Z.to_nat n) (abs b1) = (f_un b1, false, IErr :: items 100 (f_rd b1))).
    { unfold abs. rewrite Ee. cbn [app]. apply take_map_err. unfold f_buffered in Hb. lia. }
    rewrite E in T1. cbn [fst] in T1. rewrite <- T1. eexists. split; [reflexivity|]. cbn. discriminate.
  - assert (E : take_bytes (Z.to_nat n) (abs b1) = (firstn (Z.to_nat n) (f_un b1), true, map IByte (skipn (Z.to_nat n) (f_un b1)) ++ (match f_err b1 with Some _ => [IErr] | None => [] end) ++ items 100 (f_rd b1))).
    { unfold abs. apply take_map. unfold f_buffered in Hb. lia. }
    rewrite E in T1, T2. cbn [fst snd] in T1, T2. rewrite <- T1. exists b1. split; [reflexivity|]. intros _.
    unfold discard. destruct (Z.leb_spec n 0).
    { assert (n = 0) by lia. subst n. exists b1. split; [reflexivity|]. split; [exact T2|]. split; [exact P3|]. split; [congruence|]. cbn. lia. }
    cbn [discard_loop]. change (f_buffered (set_last None b1)) with (f_buffered b1). destruct (Z.eqb_spec (f_buffered b1) 0); [lia|].
    change (f_buffered (set_last None b1)) with (f_buffered b1). rewrite Z.min_r by lia. rewrite Z.sub_diag. cbn [Z.eqb]. eexists. split; [reflexivity|].
    split; [exact T2|]. unfold ok, left, f_buffered, set_last in *. cbn [f_un f_r f_size f_rd]. rewrite skipn_length. split; [split; lia|]. split; [exact P4|]. lia.
Qed.
