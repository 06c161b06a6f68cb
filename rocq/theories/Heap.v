(* The memory a Go program sees: variables, arrays, slices and maps with their addresses.  Used to state what is shared with what. *)
From Verif Require Import Bytes GoMap GoTime Common.
Local Open Scope nat_scope.

Definition addr := nat.
(* []byte: array, offset, length, capacity (from the offset on).  The nil slice is None where a slice is optional. *)
Record slice := Slice { s_arr : addr; s_off : nat; s_len : nat; s_cap : nat }.
(* the pointers of syslog.go:67-77 Base *)
Record base := Base { p_facility : option addr; p_severity : option addr; p_priority : option addr; p_timestamp : option addr;
  p_hostname : option addr; p_appname : option addr; p_procID : option addr; p_msgID : option addr; p_message : option addr }.
(* what an address holds.  Strings are values: Go never changes the bytes of a string. *)
Inductive cell :=
| KU8 (z : Z) | KTime (t : time) | KStr (s : bytes)                 (* variables of type uint8, time.Time, string *)
| KArr (b : bytes)                                                  (* an array of bytes, behind slices *)
| KRef (m : option addr)                                            (* a variable of type map[string]map[string]string; None: nil *)
| KOuter (m : gmap addr) | KInner (m : gmap bytes)                  (* a map[string]map[string]string and a map[string]string themselves *)
| KOut5 (prioritySet timestampSet hasElements : bool) (priority version : Z)  (* rfc5424 syslogMessage: the fields whose address is never taken *)
| KOut3 (prioritySet timestampSet : bool) (priority : Z)            (* rfc3164 syslogMessage: the same *)
| KMsg5 (b : base) (version : Z) (sd : option addr)                 (* rfc5424/syslog_message.go:78-83 SyslogMessage *)
| KMsg3 (b : base).                                                 (* rfc3164/syslog_message.go SyslogMessage *)
Definition heap := list cell.

Definition hget (h : heap) (a : addr) : option cell := nth_error h a.
Fixpoint hput (h : heap) (a : addr) (c : cell) : heap :=
  match h, a with [], _ => [] | _ :: r, O => c :: r | x :: r, S a => x :: hput r a c end.
(* new: a fresh address *)
Definition alloc (h : heap) (c : cell) : heap * addr := (h ++ [c], length h).

(* ---------- slices ---------- *)
(* string(s); None: not an array (never met) *)
Definition slice_read (h : heap) (s : slice) : option bytes :=
  match hget h (s_arr s) with
  | Some (KArr b) => if s_off s + s_len s <=? length b then Some (firstn (s_len s) (skipn (s_off s) b)) else None
  | _ => None end.
Definition oslice_read (h : heap) (s : option slice) : option bytes := match s with Some s => slice_read h s | None => Some [] end.
Definition oslice_len (s : option slice) : nat := match s with Some s => s_len s | None => 0 end.
(* s[i:j] of Go: up to the capacity; None: panic *)
Definition reslice (s : option slice) (i j : Z) : option (option slice) :=
  match s with
  | Some s => if ((0 <=? i) && (i <=? j) && (j <=? Z.of_nat (s_cap s)))%Z
              then Some (Some (Slice (s_arr s) (s_off s + Z.to_nat i) (Z.to_nat (j - i)) (s_cap s - Z.to_nat i))) else None
  | None => if ((i =? 0) && (j =? 0))%Z then Some None else None
  end.
(* data[i:j] where j never exceeds the length; like Bytes.zslice the model is stricter than Go *)
Definition subslice (s : slice) (i j : Z) : option slice :=
  if ((0 <=? i) && (i <=? j) && (j <=? Z.of_nat (s_len s)))%Z
  then Some (Slice (s_arr s) (s_off s + Z.to_nat i) (Z.to_nat (j - i)) (s_cap s - Z.to_nat i)) else None.
(* append(dst, src...): in place when the capacity suffices, else in a new array (whose spare capacity is not modelled) *)
Definition h_append (h : heap) (dst src : option slice) : option (heap * option slice) :=
  match oslice_read h src with
  | None => None
  | Some t =>
    match dst with
    | None => match t with [] => Some (h, None) | _ => let (h', a) := alloc h (KArr t) in Some (h', Some (Slice a 0 (length t) (length t))) end
    | Some d =>
      match hget h (s_arr d), slice_read h d with
      | Some (KArr b), Some old =>
          if s_len d + length t <=? s_cap d
          then Some (hput h (s_arr d) (KArr (firstn (s_off d + s_len d) b ++ t ++ skipn (s_off d + s_len d + length t) b)),
                     Some (Slice (s_arr d) (s_off d) (s_len d + length t) (s_cap d)))
          else let (h', a) := alloc h (KArr (old ++ t)) in Some (h', Some (Slice a 0 (length (old ++ t)) (length (old ++ t))))
      | _, _ => None
      end
    end
  end.
(* common/functions.go:20-28 RemoveBytes on slices *)
Fixpoint h_remove_loop (h : heap) (cp : option slice) (positions : list Z) (i offset : Z) : option (heap * option slice) :=
  match positions with
  | [] => Some (h, cp)
  | pos :: r =>
      let at_ := (pos - i - offset)%Z in
      match reslice cp 0 at_, reslice cp (at_ + 1) (Z.of_nat (oslice_len cp)) with
      | Some d, Some s =>
        match h_append h d s with
        | Some (h', cp') => h_remove_loop h' cp' r (i + 1) offset
        | None => None
        end
      | _, _ => None
      end
  end.
Definition h_remove_bytes (h : heap) (data : option slice) (positions : list Z) (offset : Z) : option (heap * option slice) :=
  match h_append h None data with Some (h', cp) => h_remove_loop h' cp positions 0 offset | None => None end.

(* ---------- facts ---------- *)
Lemma hput_len h a c : length (hput h a c) = length h.
Proof. revert a; induction h as [|x r IH]; intros [|a]; cbn; auto. Qed.
Lemma hget_put h a c b : hget (hput h a c) b = if (a =? b) && (a <? length h) then Some c else hget h b.
Proof.
  unfold hget. revert a b; induction h as [|x r IH]; intros [|a] [|b]; cbn; auto.
  - destruct (a =? b); reflexivity.
  - rewrite IH. reflexivity.
Qed.
Lemma hget_put_same h a c : a < length h -> hget (hput h a c) a = Some c.
Proof. intros H. rewrite hget_put, Nat.eqb_refl. apply Nat.ltb_lt in H. rewrite H. reflexivity. Qed.
Lemma hget_put_other h a c b : a <> b -> hget (hput h a c) b = hget h b.
Proof. intros H. rewrite hget_put. apply Nat.eqb_neq in H. rewrite H. reflexivity. Qed.
Lemma hget_lt h a c : hget h a = Some c -> a < length h.
Proof. intros H. apply nth_error_Some. unfold hget in H. congruence. Qed.
Lemma hget_old h r a : a < length h -> hget (h ++ r) a = hget h a.
Proof. intros H. apply nth_error_app1. exact H. Qed.
Lemma hget_app h r a c : hget h a = Some c -> hget (h ++ r) a = Some c.
Proof. intros H. rewrite hget_old; [exact H|]. eapply hget_lt; eauto. Qed.
Lemma hget_new h c : hget (h ++ [c]) (length h) = Some c.
Proof. unfold hget. rewrite nth_error_app2, Nat.sub_diag by lia. reflexivity. Qed.
Lemma hput_app h r a c : a < length h -> hput (h ++ r) a c = hput h a c ++ r.
Proof. revert a; induction h as [|x h IH]; intros [|a] H; cbn in *; try lia; auto. rewrite IH by lia. reflexivity. Qed.
Lemma hput_new h c d : hput (h ++ [c]) (length h) d = h ++ [d].
Proof. induction h as [|x h IH]; cbn; [reflexivity|]. rewrite IH. reflexivity. Qed.

Lemma slice_read_app h r s b : slice_read h s = Some b -> slice_read (h ++ r) s = Some b.
Proof.
  unfold slice_read. destruct (hget h (s_arr s)) as [c|] eqn:E; [|discriminate]. rewrite (hget_app _ r _ _ E). auto.
Qed.
Lemma skipn_skipn {A} i j (l : list A) : skipn i (skipn j l) = skipn (i + j) l.
Proof.
  revert l; induction j as [|j IH]; intros l; [rewrite Nat.add_0_r; reflexivity|].
  rewrite Nat.add_succ_r. destruct l as [|x l]; cbn [skipn]; [destruct i; reflexivity|apply IH].
Qed.
Lemma slice_read_sub h s b i j : slice_read h s = Some b ->
  match zslice b i j with
  | Some t => exists u, subslice s i j = Some u /\ slice_read h u = Some t
  | None => subslice s i j = None
  end.
Proof.
  unfold slice_read, zslice, subslice. destruct (hget h (s_arr s)) as [[| | |b0| | | | | | |]|] eqn:Eg; try discriminate.
  destruct (Nat.leb_spec (s_off s + s_len s) (length b0)) as [H|]; [|discriminate]. intros E; injection E as E. subst b.
  assert (Hl : length (firstn (s_len s) (skipn (s_off s) b0)) = s_len s) by (rewrite firstn_length, skipn_length; lia).
  rewrite Hl. destruct ((0 <=? i) && (i <=? j) && (j <=? Z.of_nat (s_len s)))%Z eqn:Ec; [|reflexivity].
  apply andb_true_iff in Ec as [Ec E3]. apply andb_true_iff in Ec as [E1 E2]. apply Z.leb_le in E1, E2, E3.
  eexists; split; [reflexivity|]. cbn [s_arr s_off s_len]. rewrite Eg.
  destruct (Nat.leb_spec (s_off s + Z.to_nat i + Z.to_nat (j - i)) (length b0)) as [_|Hx]; [|lia].
  f_equal. rewrite skipn_firstn_comm, skipn_skipn, firstn_firstn. replace (Nat.min (Z.to_nat (j - i)) (s_len s - Z.to_nat i)) with (Z.to_nat (j - i)) by lia. replace (Z.to_nat i + s_off s) with (s_off s + Z.to_nat i) by lia. reflexivity.
Qed.

(* RemoveBytes gives the bytes the model on values gives, panics when it does, and changes nothing that existed before *)
Lemma h_remove_loop_ok h positions : forall arr len i offset, len <= length arr ->
  match remove_loop (firstn len arr) positions i offset with
  | Some r => exists arr' len', h_remove_loop (h ++ [KArr arr]) (Some (Slice (length h) 0 len (length arr))) positions i offset
                = Some (h ++ [KArr arr'], Some (Slice (length h) 0 len' (length arr'))) /\ len' <= length arr' /\ firstn len' arr' = r
  | None => h_remove_loop (h ++ [KArr arr]) (Some (Slice (length h) 0 len (length arr))) positions i offset = None
  end.
Proof.
  induction positions as [|pos r IH]; intros arr len i offset Hl; cbn [remove_loop h_remove_loop].
  - exists arr, len. auto.
  - set (at_ := (pos - i - offset)%Z).
    assert (Hlen : length (firstn len arr) = len) by (rewrite firstn_length; lia). rewrite Hlen.
    destruct ((0 <=? at_) && (at_ + 1 <=? Z.of_nat len))%Z eqn:Ec.
    + apply andb_true_iff in Ec as [E1 E2]. apply Z.leb_le in E1, E2.
      set (k := Z.to_nat at_). assert (Hk : k < len) by lia.
      unfold reslice. cbn [s_cap s_arr s_off oslice_len s_len].
      replace ((0 <=? 0) && (0 <=? at_) && (at_ <=? Z.of_nat (length arr)))%Z with true by (symmetry; rewrite !andb_true_iff, !Z.leb_le; lia).
      replace ((0 <=? at_ + 1) && (at_ + 1 <=? Z.of_nat len) && (Z.of_nat len <=? Z.of_nat (length arr)))%Z with true by (symmetry; rewrite !andb_true_iff, !Z.leb_le; lia).
      replace (Z.to_nat (at_ - 0)) with k by lia. replace (Z.to_nat 0) with 0 by lia. replace (Z.to_nat (at_ + 1)) with (S k) by lia.
      replace (Z.to_nat (Z.of_nat len - (at_ + 1))) with (len - S k) by lia. rewrite Nat.sub_0_r, !Nat.add_0_l.
      unfold h_append, oslice_read, slice_read. cbn [s_arr s_off s_len s_cap]. rewrite hget_new.
      replace (S k + (len - S k) <=? length arr) with true by (symmetry; apply Nat.leb_le; lia).
      replace (0 + k <=? length arr) with true by (symmetry; apply Nat.leb_le; lia).
      set (t := firstn (len - S k) (skipn (S k) arr)).
      assert (Ht : length t = len - S k) by (unfold t; rewrite firstn_length, skipn_length; lia). rewrite Ht.
      replace (k + (len - S k) <=? length arr) with true by (symmetry; apply Nat.leb_le; lia).
      rewrite hput_new, !Nat.add_0_l.
      set (arr' := firstn k arr ++ t ++ skipn (k + (len - S k)) arr).
      assert (Ha : length arr' = length arr) by (unfold arr'; rewrite !app_length, firstn_length, skipn_length, Ht; lia).
      rewrite <- Ha. specialize (IH arr' (k + (len - S k)) (i + 1)%Z offset). rewrite Ha in IH at 1.
      assert (Hf : firstn (k + (len - S k)) arr' = firstn k (firstn len arr) ++ skipn (S k) (firstn len arr)).
      { assert (Ek : length (firstn k arr) = k) by (rewrite firstn_length; lia).
        unfold arr'. rewrite app_assoc, firstn_app, !app_length, Ek, Ht, Nat.sub_diag. cbn [firstn]. rewrite app_nil_r.
        rewrite firstn_all2 by (rewrite app_length, Ek, Ht; lia). f_equal; [rewrite firstn_firstn; f_equal; lia|].
        unfold t. rewrite skipn_firstn_comm. reflexivity. }
      rewrite Hf in IH. apply IH. lia.
    + assert (Hn : reslice (Some (Slice (length h) 0 len (length arr))) 0 at_ = None \/ reslice (Some (Slice (length h) 0 len (length arr))) (at_ + 1) (Z.of_nat len) = None).
      { unfold reslice. cbn [s_cap]. apply andb_false_iff in Ec as [E|E]; apply Z.leb_gt in E.
        - left. replace ((0 <=? 0) && (0 <=? at_) && (at_ <=? Z.of_nat (length arr)))%Z with false; [reflexivity|].
          symmetry. rewrite !andb_false_iff, !Z.leb_gt. lia.
        - right. replace ((0 <=? at_ + 1) && (at_ + 1 <=? Z.of_nat len) && (Z.of_nat len <=? Z.of_nat (length arr)))%Z with false; [reflexivity|].
          symmetry. rewrite !andb_false_iff, !Z.leb_gt. lia. }
      cbn [oslice_len s_len]. destruct Hn as [-> | ->]; [reflexivity|]. destruct (reslice _ 0 at_); reflexivity.
Qed.
Theorem h_remove_bytes_fresh h data b positions offset : oslice_read h data = Some b ->
  match remove_bytes b positions offset with
  | Some r => exists h' s, h_remove_bytes h data positions offset = Some (h ++ h', s) /\ oslice_read (h ++ h') s = Some r /\
      match s with Some s => length h <= s_arr s | None => True end
  | None => h_remove_bytes h data positions offset = None
  end.
Proof.
  intros Hb. unfold h_remove_bytes, h_append. rewrite Hb. unfold remove_bytes. destruct b as [|c b].
  - destruct positions as [|pos r]; cbn [remove_loop h_remove_loop].
    + exists [], None. rewrite app_nil_r. auto.
    + replace ((0 <=? pos - 0 - offset) && (pos - 0 - offset + 1 <=? Z.of_nat (@length byte [])))%Z with false
        by (symmetry; cbn [length]; rewrite andb_false_iff, !Z.leb_gt; lia).
      unfold reslice. cbn [oslice_len]. destruct (Z.eqb_spec (pos - 0 - offset) 0) as [E|E]; [|reflexivity].
      rewrite E. reflexivity.
  - unfold alloc. pose proof (h_remove_loop_ok h positions (c :: b) (length (c :: b)) 0 offset (Nat.le_refl _)) as H.
    rewrite firstn_all in H. destruct (remove_loop (c :: b) positions 0 offset) as [r|]; [|exact H].
    destruct H as [arr' [len' [H1 [H2 H3]]]]. exists [KArr arr'], (Some (Slice (length h) 0 len' (length arr'))). split; [exact H1|].
    split; [|cbn; lia]. cbn [oslice_read]. unfold slice_read. cbn [s_arr s_off s_len]. rewrite hget_new.
    replace (0 + len' <=? length arr') with true by (symmetry; apply Nat.leb_le; lia). cbn [skipn]. rewrite H3. reflexivity.
Qed.
Theorem h_remove_bytes_ok h data b positions offset : oslice_read h data = Some b ->
  match remove_bytes b positions offset with
  | Some r => exists h' s, h_remove_bytes h data positions offset = Some (h ++ h', s) /\ oslice_read (h ++ h') s = Some r
  | None => h_remove_bytes h data positions offset = None
  end.
Proof.
  intros Hb. pose proof (h_remove_bytes_fresh h data b positions offset Hb) as H. destruct (remove_bytes b positions offset); [|exact H].
  destruct H as [h' [s [H1 [H2 _]]]]. exists h', s. auto.
Qed.
