(* Go's bufio.Reader with its array: what Bufio.v keeps as the bytes buf[r:w] is here the whole array, the indices r and w, the copies
   that move the unread bytes to the front, and a reader that may scribble over the rest of the slice it is given. *)
From Verif Require Import Bytes Bufio.
Local Open Scope nat_scope.

(* io.Reader: as Bufio.reader, with what each call of Read leaves in the rest of the slice ("Even if Read returns n < len(p), it may use
   all of p as scratch space during the call") *)
Definition mreader := list ((bytes * option rerr) * bytes).
Definition calm (rd : mreader) : reader := map fst rd.
Definition m_read (len : nat) (rd : mreader) : bytes * option rerr * bytes * mreader :=
  match rd with
  | [] => ([], Some REOF, [], [])
  | ((c, e), s) :: r => if length c <=? len then (c, e, firstn (len - length c) s, r)
                        else (firstn len c, None, [], ((skipn len c, e), s) :: r)
  end.

(* copy(a[i:], c), c not longer than a[i:] *)
Definition blit (a : bytes) (i : nat) (c : bytes) : bytes := firstn i a ++ c ++ skipn (i + length c) a.
(* a[i:j] *)
Definition cut (a : bytes) (i j : nat) : bytes := firstn (j - i) (skipn i a).

(* bufio.Reader: buf, r, w, lastByte (None: -1), err, rd *)
Record abufio := AB { a_arr : bytes; a_r : nat; a_w : nat; a_last : option byte; a_err : option rerr; a_rd : mreader }.
Definition a_clear_err (b : abufio) : abufio := AB (a_arr b) (a_r b) (a_w b) (a_last b) None (a_rd b).
Definition a_set_last (l : option byte) (b : abufio) : abufio := AB (a_arr b) (a_r b) (a_w b) l (a_err b) (a_rd b).
Definition a_buffered (b : abufio) : nat := a_w b - a_r b.

(* the loop of bufio.Reader.fill: at most k = maxConsecutiveEmptyReads empty reads; array, w, error, reader *)
Fixpoint a_fill_loop (k : nat) (a : bytes) (w : nat) (rd : mreader) : bytes * nat * option rerr * mreader :=
  match k with
  | O => (a, w, Some RNoProgress, rd)
  | S k' => match m_read (length a - w) rd with
            | (c, e, s, rd') =>
                let a' := blit a w (c ++ s) in
                match e with
                | Some _ => (a', w + length c, e, rd')
                | None => match c with [] => a_fill_loop k' a' w rd' | _ => (a', w + length c, None, rd') end end
            end
  end.
(* bufio.Reader.fill: slide existing data to beginning, then read; None: panic "tried to fill full buffer" *)
Definition a_fill (b : abufio) : option abufio :=
  let (a, w) := if 0 <? a_r b then (blit (a_arr b) 0 (cut (a_arr b) (a_r b) (a_w b)), a_w b - a_r b) else (a_arr b, a_w b) in
  if length a <=? w then None
  else match a_fill_loop 100 a w (a_rd b) with
       | (a', w', e, rd') => Some (AB a' 0 w' (a_last b) (match e with Some _ => e | None => a_err b end) rd')
       end.

(* bufio.Reader.ReadByte *)
Fixpoint a_read_byte_loop (fuel : nat) (b : abufio) : option (option byte * abufio) :=
  match fuel with
  | O => None
  | S f => if a_r b =? a_w b then
             match a_err b with
             | Some _ => Some (None, a_clear_err b)
             | None => match a_fill b with Some b' => a_read_byte_loop f b' | None => None end
             end
           else match nth_error (a_arr b) (a_r b) with
                | Some c => Some (Some c, AB (a_arr b) (a_r b + 1) (a_w b) (Some c) (a_err b) (a_rd b))
                | None => None end
  end.
Definition a_read_byte (b : abufio) := a_read_byte_loop 3 b.

(* bufio.Reader.UnreadByte: it writes the byte back into the array *)
Definition a_unread_byte (b : abufio) : abufio :=
  match a_last b with
  | None => b
  | Some c => if (a_r b =? 0) && (0 <? a_w b) then b
              else if 0 <? a_r b then AB (blit (a_arr b) (a_r b - 1) [c]) (a_r b - 1) (a_w b) None (a_err b) (a_rd b)
              else AB (blit (a_arr b) 0 [c]) 0 1 None (a_err b) (a_rd b)
  end.

(* bufio.Reader.Peek: the length of the slice buf[r:r+n] it returns (None: nil), and whether err == nil *)
Fixpoint a_peek_loop (fuel : nat) (n : Z) (b : abufio) : option abufio :=
  if (Z.of_nat (a_buffered b) <? n)%Z && (a_buffered b <? length (a_arr b)) && (match a_err b with None => true | Some _ => false end) then
    match fuel with
    | O => None
    | S f => match a_fill b with Some b' => a_peek_loop f n b' | None => None end
    end
  else Some b.
Definition a_peek (n : Z) (b : abufio) : option (option nat * bool * abufio) :=
  if (n <? 0)%Z then Some (None, false, b)
  else match a_peek_loop (S (S (rd_size (calm (a_rd b))))) n (a_set_last None b) with
       | None => None
       | Some b => if (Z.of_nat (length (a_arr b)) <? n)%Z then Some (Some (a_buffered b), false, b)
                   else if (Z.of_nat (a_buffered b) <? n)%Z then Some (Some (a_buffered b), false, a_clear_err b)
                   else Some (Some (Z.to_nat n), true, b)
       end.

(* bufio.Reader.Discard *)
Fixpoint a_discard_loop (fuel : nat) (n : Z) (b : abufio) : option abufio :=
  match fuel with
  | O => None
  | S f =>
    match (if a_buffered b =? 0 then a_fill b else Some b) with
    | None => None
    | Some b =>
        let skip := Z.min (Z.of_nat (a_buffered b)) n in
        let b' := AB (a_arr b) (a_r b + Z.to_nat skip) (a_w b) (a_last b) (a_err b) (a_rd b) in
        if (n - skip =? 0)%Z then Some b'
        else match a_err b' with Some _ => Some (a_clear_err b') | None => a_discard_loop f (n - skip) b' end
    end
  end.
Definition a_discard (n : Z) (b : abufio) : option abufio :=
  if (n <=? 0)%Z then Some b else a_discard_loop (S (S (rd_size (calm (a_rd b))))) n (a_set_last None b).

(* ---------- the bytes buf[r:w] are those of Bufio.v ---------- *)
Record arel (b : abufio) (f : bufio) : Prop := Arel {
  ar_pos : 0 < length (a_arr b); ar_r : a_r b <= a_w b; ar_w : a_w b <= length (a_arr b);
  ar_size : f_size f = Z.of_nat (length (a_arr b)); ar_un : f_un f = cut (a_arr b) (a_r b) (a_w b);
  ar_fr : f_r f = Z.of_nat (a_r b); ar_last : f_last f = a_last b; ar_err : f_err f = a_err b; ar_rd : f_rd f = calm (a_rd b) }.

Lemma blit_len a i c : i + length c <= length a -> length (blit a i c) = length a.
Proof. intros H. unfold blit. rewrite !app_length, firstn_length, skipn_length. lia. Qed.
Lemma cut_len a i j : i <= j -> j <= length a -> length (cut a i j) = j - i.
Proof. intros H1 H2. unfold cut. rewrite firstn_length, skipn_length. lia. Qed.
Lemma skipn_more (m n : nat) : forall l : bytes, skipn m (skipn n l) = skipn (n + m) l.
Proof. induction n as [|n IH]; intros l; [reflexivity|]. destruct l as [|x l]; cbn; [apply skipn_nil|apply IH]. Qed.
Lemma cut_split a i j k : i <= j -> j <= k -> cut a i k = cut a i j ++ cut a j k.
Proof.
  intros H1 H2. unfold cut. replace (skipn j a) with (skipn (j - i) (skipn i a)) by (rewrite skipn_more; f_equal; lia).
  replace (k - i) with ((j - i) + (k - j)) by lia. generalize (skipn i a) as l. intros l. generalize (j - i) (k - j). clear.
  intros m n. revert l. induction m as [|m IH]; intros l; [reflexivity|]. destruct l as [|x l]; cbn; [rewrite firstn_nil; reflexivity|]. rewrite IH. reflexivity.
Qed.
(* what lies before the written part is kept *)
Lemma cut_blit_before a i c r : r <= i -> i <= length a -> cut (blit a i c) r i = cut a r i.
Proof.
  intros H1 H2. unfold cut, blit. rewrite skipn_app, firstn_app, skipn_length, firstn_length.
  replace (i - r - (Nat.min i (length a) - r)) with 0 by lia. rewrite firstn_O, app_nil_r.
  rewrite firstn_all2 by (rewrite skipn_length, firstn_length; lia). rewrite skipn_firstn_comm. reflexivity.
Qed.
Lemma cut_blit_at a i c s : i <= length a -> cut (blit a i (c ++ s)) i (i + length c) = c.
Proof.
  intros H. unfold cut, blit. rewrite skipn_app, firstn_length. replace (i - Nat.min i (length a)) with 0 by lia.
  rewrite skipn_all2 by (rewrite firstn_length; lia). cbn [app skipn]. replace (i + length c - i) with (length c) by lia.
  rewrite <- app_assoc, firstn_app, Nat.sub_diag, firstn_O, app_nil_r. apply firstn_all.
Qed.
Lemma calm_read len rd : let '(c, e, s, rd') := m_read len rd in rd_read (Z.of_nat len) (calm rd) = (c, e, calm rd') /\ length (c ++ s) <= len.
Proof.
  destruct rd as [|[[c e] s] r]; cbn; [split; [reflexivity|lia]|]. destruct (Nat.leb_spec (length c) len) as [L|L].
  - destruct (Z.leb_spec (Z.of_nat (length c)) (Z.of_nat len)); [|lia]. split; [reflexivity|]. rewrite app_length, firstn_length. lia.
  - destruct (Z.leb_spec (Z.of_nat (length c)) (Z.of_nat len)); [lia|]. rewrite Nat2Z.id. split; [reflexivity|]. rewrite app_nil_r, firstn_length. lia.
Qed.
Lemma fill_loop_rel k : forall a w rd, w <= length a ->
  let '(a', w', e, rd') := a_fill_loop k a w rd in
  exists c, fill_loop k (Z.of_nat (length a - w)) (calm rd) = (c, e, calm rd') /\ length a' = length a /\ w' = w + length c /\ w' <= length a /\
    cut a' 0 w' = cut a 0 w ++ c.
Proof.
  induction k as [|k IH]; intros a w rd Hw; cbn [a_fill_loop fill_loop].
  - exists []. cbn. rewrite app_nil_r. repeat split; lia.
  - pose proof (calm_read (length a - w) rd) as H. destruct (m_read (length a - w) rd) as [[[c e] s] rd']. destruct H as [-> H].
    assert (L : length (blit a w (c ++ s)) = length a) by (apply blit_len; lia).
    assert (C : cut (blit a w (c ++ s)) 0 (w + length c) = cut a 0 w ++ c).
    { rewrite (cut_split _ 0 w) by lia. rewrite cut_blit_before by lia. rewrite cut_blit_at by lia. reflexivity. }
    rewrite app_length in H. destruct e as [e|].
    + exists c. split; [reflexivity|]. split; [exact L|]. split; [reflexivity|]. split; [lia|exact C].
    + destruct c as [|x c].
      * specialize (IH (blit a w ([] ++ s)) w rd'). rewrite L in IH. specialize (IH Hw). destruct (a_fill_loop k _ _ _) as [[[a' w'] e'] rd2].
        destruct IH as [c' [I1 [I2 [I3 [I4 I5]]]]]. exists c'. split; [exact I1|]. split; [congruence|]. split; [exact I3|]. split; [exact I4|].
        rewrite I5. f_equal. apply cut_blit_before; lia.
      * exists (x :: c). split; [reflexivity|]. split; [exact L|]. split; [reflexivity|]. split; [lia|exact C].
Qed.
Lemma fill_rel b f : arel b f -> match a_fill b, fill f with
  | Some b', Some f' => arel b' f' /\ length (a_arr b') = length (a_arr b) /\ a_r b' = 0 /\ exists c, cut (a_arr b') 0 (a_w b') = cut (a_arr b) (a_r b) (a_w b) ++ c
  | None, None => True | _, _ => False end.
Proof.
  intros [R0 R1 R2 R3 R4 R5 R6 R7 R8]. unfold a_fill, fill. rewrite R3, R7, R8. unfold f_buffered. rewrite R4, cut_len by lia.
  set (aw := if 0 <? a_r b then _ else _).
  assert (H : exists a w, aw = (a, w) /\ w = a_w b - a_r b /\ length a = length (a_arr b) /\ cut a 0 w = cut (a_arr b) (a_r b) (a_w b)).
  { unfold aw. destruct (Nat.ltb_spec 0 (a_r b)) as [L|L].
    - eexists _, _. split; [reflexivity|]. split; [reflexivity|]. split; [apply blit_len; rewrite cut_len; lia|].
      pose proof (cut_blit_at (a_arr b) 0 (cut (a_arr b) (a_r b) (a_w b)) [] ltac:(lia)) as E. rewrite app_nil_r in E. rewrite cut_len in E by lia. exact E.
    - eexists _, _. split; [reflexivity|]. replace (a_r b) with 0 by lia. split; [lia|]. split; reflexivity. }
  destruct H as [a [w [-> [Ew [La C]]]]]. rewrite La.
  destruct (Nat.leb_spec (length (a_arr b)) w) as [L|L].
  - destruct (Z.leb_spec (Z.of_nat (length (a_arr b))) (Z.of_nat (a_w b - a_r b))); [exact I|lia].
  - destruct (Z.leb_spec (Z.of_nat (length (a_arr b))) (Z.of_nat (a_w b - a_r b))); [lia|].
    pose proof (fill_loop_rel 100 a w (a_rd b) ltac:(lia)) as F. destruct (a_fill_loop 100 a w (a_rd b)) as [[[a' w'] e] rd'].
    destruct F as [c [F1 [F2 [F3 [F4 F5]]]]].
    replace (Z.of_nat (length (a_arr b)) - Z.of_nat (a_w b - a_r b))%Z with (Z.of_nat (length a - w)) by lia. rewrite F1.
    split; [constructor; cbn [a_arr a_r a_w a_last a_err a_rd f_size f_un f_r f_last f_err f_rd]; auto; try lia; try congruence|]. split; [cbn [a_arr a_r a_w a_last a_err a_rd f_size f_un f_r f_last f_err f_rd]; congruence|]. split; [reflexivity|]. exists c. cbn [a_arr a_r a_w a_last a_err a_rd f_size f_un f_r f_last f_err f_rd]. congruence.
Qed.
Lemma read_byte_rel n : forall b f, arel b f -> match a_read_byte_loop n b, read_byte_loop n f with
  | Some (c, b'), Some (c', f') => c = c' /\ arel b' f' /\ length (a_arr b') = length (a_arr b)
  | None, None => True | _, _ => False end.
Proof.
  induction n as [|n IH]; intros b f R; cbn [a_read_byte_loop read_byte_loop]; [exact I|].
  pose proof R as [R0 R1 R2 R3 R4 R5 R6 R7 R8]. rewrite R4.
  destruct (Nat.eqb_spec (a_r b) (a_w b)) as [E|E].
  - rewrite E. unfold cut. rewrite Nat.sub_diag. cbn [firstn]. rewrite R7. destruct (a_err b) as [e|] eqn:Ee.
    + split; [reflexivity|]. split; [|reflexivity]. constructor; cbn [a_arr a_r a_w a_last a_err a_rd f_size f_un f_r f_last f_err f_rd]; auto.
    + pose proof (fill_rel b f R) as F. destruct (a_fill b) as [b'|], (fill f) as [f'|]; try tauto. destruct F as [F1 [F2 _]].
      specialize (IH b' f' F1). destruct (a_read_byte_loop n b') as [[c b2]|], (read_byte_loop n f') as [[c' f2]|]; try tauto.
      destruct IH as [I1 [I2 I3]]. split; [exact I1|]. split; [exact I2|congruence].
  - assert (Hc : exists c u, cut (a_arr b) (a_r b) (a_w b) = c :: u /\ nth_error (a_arr b) (a_r b) = Some c /\ u = cut (a_arr b) (a_r b + 1) (a_w b)).
    { rewrite (cut_split _ (a_r b) (a_r b + 1)) by lia. destruct (nth_error (a_arr b) (a_r b)) as [c|] eqn:En; [|apply nth_error_None in En; lia].
      exists c, (cut (a_arr b) (a_r b + 1) (a_w b)). split; [|split; reflexivity]. apply nth_error_split in En as [l1 [l2 [Ea El]]]. rewrite Ea, <- El. unfold cut at 1.
      rewrite skipn_app, Nat.sub_diag, skipn_all2 by lia. replace (length l1 + 1 - length l1) with 1 by lia. reflexivity. }
    destruct Hc as [c [u [-> [-> ->]]]]. split; [reflexivity|]. split; [|reflexivity]. constructor; cbn [a_arr a_r a_w a_last a_err a_rd f_size f_un f_r f_last f_err f_rd]; auto; try lia.
Qed.
Lemma unread_rel b f : arel b f -> arel (a_unread_byte b) (unread_byte f) /\ length (a_arr (a_unread_byte b)) = length (a_arr b).
Proof.
  intros R. pose proof R as [R0 R1 R2 R3 R4 R5 R6 R7 R8]. unfold a_unread_byte, unread_byte. rewrite R6, R5. unfold f_buffered. rewrite R4, cut_len by lia.
  destruct (a_last b) as [c|] eqn:El; [|split; [exact R|reflexivity]].
  replace (Z.of_nat (a_r b) =? 0)%Z with (a_r b =? 0) by (destruct (Nat.eqb_spec (a_r b) 0), (Z.eqb_spec (Z.of_nat (a_r b)) 0); lia).
  replace (0 <? Z.of_nat (a_r b) + Z.of_nat (a_w b - a_r b))%Z with (0 <? a_w b)
    by (destruct (Nat.ltb_spec 0 (a_w b)), (Z.ltb_spec 0 (Z.of_nat (a_r b) + Z.of_nat (a_w b - a_r b))); lia).
  replace (0 <? Z.of_nat (a_r b))%Z with (0 <? a_r b) by (destruct (Nat.ltb_spec 0 (a_r b)), (Z.ltb_spec 0 (Z.of_nat (a_r b))); lia).
  destruct ((a_r b =? 0) && (0 <? a_w b)) eqn:E0; [split; [exact R|reflexivity]|].
  destruct (Nat.ltb_spec 0 (a_r b)) as [L|L].
  - assert (Hl : length (blit (a_arr b) (a_r b - 1) [c]) = length (a_arr b)) by (apply blit_len; cbn; lia). split; [|exact Hl].
    constructor; cbn [a_arr a_r a_w a_last a_err a_rd f_size f_un f_r f_last f_err f_rd]; auto; try lia; try congruence.
    rewrite (cut_split _ (a_r b - 1) (a_r b)) by lia.
    pose proof (cut_blit_at (a_arr b) (a_r b - 1) [c] [] ltac:(lia)) as E. cbn [app length] in E. replace (a_r b - 1 + 1) with (a_r b) in E by lia. rewrite E. cbn [app]. f_equal.
    unfold cut, blit. cbn [length app]. replace (a_r b - 1 + 1) with (a_r b) by lia.
    rewrite skipn_app, firstn_length. rewrite (skipn_all2 (firstn _ _)) by (rewrite firstn_length; lia).
    replace (a_r b - Nat.min (a_r b - 1) (length (a_arr b))) with 1 by lia. reflexivity.
  - assert (Er : a_r b = 0) by lia. rewrite Er in E0. cbn [Nat.eqb andb] in E0. apply Nat.ltb_ge in E0.
    assert (Hl : length (blit (a_arr b) 0 [c]) = length (a_arr b)) by (apply blit_len; cbn; lia). split; [|exact Hl].
    constructor; cbn [a_arr a_r a_w a_last a_err a_rd f_size f_un f_r f_last f_err f_rd]; auto; try lia; try congruence.
Qed.
Lemma set_last_rel l b f : arel b f -> arel (a_set_last l b) (set_last l f).
Proof. intros [R0 R1 R2 R3 R4 R5 R6 R7 R8]. constructor; cbn [a_arr a_r a_w a_last a_err a_rd f_size f_un f_r f_last f_err f_rd]; auto. Qed.
Lemma clear_rel b f : arel b f -> arel (a_clear_err b) (clear_err f).
Proof. intros [R0 R1 R2 R3 R4 R5 R6 R7 R8]. constructor; cbn [a_arr a_r a_w a_last a_err a_rd f_size f_un f_r f_last f_err f_rd]; auto. Qed.
Lemma buffered_rel b f : arel b f -> f_buffered f = Z.of_nat (a_buffered b).
Proof. intros [R0 R1 R2 R3 R4 R5 R6 R7 R8]. unfold f_buffered, a_buffered. rewrite R4, cut_len by lia. reflexivity. Qed.
Lemma peek_loop_rel n k : forall b f, arel b f -> match a_peek_loop n k b, peek_loop n k f with
  | Some b', Some f' => arel b' f' /\ length (a_arr b') = length (a_arr b)
  | None, None => True | _, _ => False end.
Proof.
  induction n as [|n IH]; intros b f R; cbn [a_peek_loop peek_loop]; rewrite (buffered_rel b f R), (ar_size b f R), (ar_err b f R);
    (replace (Z.of_nat (a_buffered b) <? Z.of_nat (length (a_arr b)))%Z with (a_buffered b <? length (a_arr b))
      by (destruct (Nat.ltb_spec (a_buffered b) (length (a_arr b))), (Z.ltb_spec (Z.of_nat (a_buffered b)) (Z.of_nat (length (a_arr b)))); lia));
    destruct ((Z.of_nat (a_buffered b) <? k)%Z && _ && _); auto.
  pose proof (fill_rel b f R) as F. destruct (a_fill b) as [b'|], (fill f) as [f'|]; try tauto. destruct F as [F1 [F2 _]].
  specialize (IH b' f' F1). destruct (a_peek_loop n k b') as [b2|], (peek_loop n k f') as [f2|]; try tauto. destruct IH as [I1 I2]. split; [exact I1|congruence].
Qed.
(* the slice Peek returns is buf[r:r+n] *)
Definition peeked (o : option nat) (b : abufio) : bytes := match o with Some n => cut (a_arr b) (a_r b) (a_r b + n) | None => [] end.
Lemma peek_rel n b f : arel b f -> match a_peek n b, peek n f with
  | Some (o, ok, b'), Some (l, ok', f') => ok = ok' /\ l = peeked o b' /\ arel b' f' /\ length (a_arr b') = length (a_arr b) /\
      (match o with Some k => k <= a_buffered b' | None => True end) /\ (ok = true -> (0 <= n)%Z /\ o = Some (Z.to_nat n))
  | None, None => True | _, _ => False end.
Proof.
  intros R. unfold a_peek, peek. destruct (Z.ltb_spec n 0) as [L|L]; [split; [reflexivity|]; split; [reflexivity|]; split; [exact R|]; split; [reflexivity|]; split; [exact I|discriminate]|].
  rewrite <- (ar_rd b f R). pose proof (peek_loop_rel (S (S (rd_size (f_rd f)))) n _ _ (set_last_rel None b f R)) as P.
  destruct (a_peek_loop _ n _) as [b'|], (peek_loop _ n _) as [f'|]; try tauto. destruct P as [P1 P2].
  rewrite (ar_size b' f' P1), (buffered_rel b' f' P1).
  assert (All : f_un f' = peeked (Some (a_buffered b')) b').
  { rewrite (ar_un b' f' P1). unfold peeked, a_buffered. pose proof (ar_r b' f' P1). f_equal. lia. }
  destruct (Z.ltb_spec (Z.of_nat (length (a_arr b'))) n) as [L1|L1].
  - split; [reflexivity|]. split; [exact All|]. split; [exact P1|]. split; [exact P2|]. split; [lia|discriminate].
  - destruct (Z.ltb_spec (Z.of_nat (a_buffered b')) n) as [L2|L2].
    + split; [reflexivity|]. split; [exact All|]. split; [apply clear_rel; exact P1|]. split; [exact P2|]. split; [unfold a_buffered; cbn [a_clear_err a_w a_r]; lia|discriminate].
    + split; [reflexivity|]. split; [|split; [exact P1|split; [exact P2|split; [lia|auto]]]].
      rewrite (ar_un b' f' P1). unfold peeked, cut. rewrite firstn_firstn. f_equal. unfold a_buffered in L2. pose proof (ar_r b' f' P1). lia.
Qed.
Lemma discard_loop_rel k : forall n b f, (0 < n)%Z -> arel b f -> match a_discard_loop k n b, discard_loop k n f with
  | Some b', Some f' => arel b' f' /\ length (a_arr b') = length (a_arr b) | None, None => True | _, _ => False end.
Proof.
  induction k as [|k IH]; intros n b f Hn R; cbn [a_discard_loop discard_loop]; [exact I|].
  assert (Q : match (if a_buffered b =? 0 then a_fill b else Some b), (if (f_buffered f =? 0)%Z then fill f else Some f) with
    | Some b', Some f' => arel b' f' /\ length (a_arr b') = length (a_arr b) | None, None => True | _, _ => False end).
  { rewrite (buffered_rel b f R). destruct (Nat.eqb_spec (a_buffered b) 0), (Z.eqb_spec (Z.of_nat (a_buffered b)) 0); try lia; [|split; [exact R|reflexivity]].
    pose proof (fill_rel b f R) as F. destruct (a_fill b), (fill f); tauto. }
  destruct (if a_buffered b =? 0 then a_fill b else Some b) as [b'|], (if (f_buffered f =? 0)%Z then fill f else Some f) as [f'|]; try tauto.
  destruct Q as [Q1 Q2]. rewrite (buffered_rel b' f' Q1). set (skip := Z.min _ n).
  assert (Hs : (0 <= skip /\ skip <= Z.of_nat (a_buffered b') /\ skip <= n)%Z) by (unfold skip; lia). clearbody skip.
  set (b2 := AB _ _ _ _ _ _). set (f2 := Bufio _ _ _ _ _ _).
  assert (R2 : arel b2 f2).
  { pose proof Q1 as [R0 R1 R2 R3 R4 R5 R6 R7 R8]. unfold a_buffered in Hs. unfold b2, f2; constructor; cbn [a_arr a_r a_w a_last a_err a_rd f_size f_un f_r f_last f_err f_rd]; auto; try lia.
    rewrite R4. unfold cut. rewrite skipn_firstn_comm, skipn_more. f_equal. lia. }
  destruct (n - skip =? 0)%Z eqn:E; [split; [exact R2|exact Q2]|]. rewrite (ar_err b2 f2 R2). apply Z.eqb_neq in E.
  destruct (a_err b2); [split; [apply clear_rel; exact R2|exact Q2]|].
  assert (Hn' : (0 < n - skip)%Z) by lia.
  specialize (IH (n - skip)%Z b2 f2 Hn' R2). destruct (a_discard_loop k _ b2), (discard_loop k _ f2); try tauto. destruct IH. split; [assumption|cbn in *; congruence].
Qed.
Lemma discard_rel n b f : arel b f -> match a_discard n b, discard n f with
  | Some b', Some f' => arel b' f' /\ length (a_arr b') = length (a_arr b) | None, None => True | _, _ => False end.
Proof.
  intros R. unfold a_discard, discard. destruct (Z.leb_spec n 0); [split; [exact R|reflexivity]|].
  rewrite <- (ar_rd b f R). pose proof (discard_loop_rel (S (S (rd_size (f_rd f)))) n _ _ ltac:(eassumption) (set_last_rel None b f R)) as D.
  destruct (a_discard_loop _ _ _), (discard_loop _ _ _); try tauto.
Qed.
(* bytes that are in the buffer are discarded without touching the array *)
Lemma discard_keeps n b b' : (0 <= n)%Z -> Z.to_nat n <= a_buffered b -> a_discard n b = Some b' -> a_arr b' = a_arr b /\ a_r b' = a_r b + Z.to_nat n.
Proof.
  intros H1 H2 H. unfold a_discard in H. destruct (Z.leb_spec n 0) as [L|L]; [injection H as <-; split; [reflexivity|]; replace (Z.to_nat n) with 0 by lia; lia|].
  cbn [a_discard_loop] in H. change (a_buffered (a_set_last None b)) with (a_buffered b) in H.
  destruct (Nat.eqb_spec (a_buffered b) 0); [lia|]. replace (Z.min (Z.of_nat (a_buffered (a_set_last None b))) n) with n in H by (unfold a_buffered in *; cbn; lia).
  rewrite Z.sub_diag in H. cbn [Z.eqb] in H. injection H as <-. split; reflexivity.
Qed.
