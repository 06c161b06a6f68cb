(* C76: the helpers of package testing. *)
From Verif Require Import Bytes GoTime Cal CommonFacts MTesting.
From Verif Require Import Grammar5424 Gram5424 M5424Def M5424 Thm5424.
From Verif Require Import Bufio MOctet SpecOctet ROctet ThmOctet.
Local Open Scope Z_scope.

Definition letter (b : byte) : Prop := (65 <= bN b <= 90 \/ 97 <= bN b <= 122)%N.
(* the source as an endless sequence of numbers below 64: ten of each draw, low bits first *)
Definition group (src : nat -> Z) (j : nat) : Z := src (j / 10)%nat / 2 ^ (6 * Z.of_nat (j mod 10)) mod 64.
Definition pick (x : Z) : option byte := nth_error (lit "abcdefghijklmnopqrstuvwxyzABCDEFGHIJKLMNOPQRSTUVWXYZ") (Z.to_nat x).
Definition picks (xs : list Z) : bytes := flat_map (fun x => match pick x with Some b => [b] | None => [] end) xs.
Definition groups (src : nat -> Z) (from len : nat) : list Z := map (group src) (seq from len).

Lemma pick_idx x : 0 <= x < 64 -> pick x = if x <? 52 then Some (nth (Z.to_nat x) letter_bytes x00) else None.
Proof.
  intros H. unfold pick. change (lit "abcdefghijklmnopqrstuvwxyzABCDEFGHIJKLMNOPQRSTUVWXYZ") with letter_bytes. destruct (Z.ltb_spec x 52) as [L|L].
  - apply nth_error_nth'. change (length letter_bytes) with 52%nat. lia.
  - apply nth_error_None. change (length letter_bytes) with 52%nat. lia.
Qed.
(* position j of the sequence: the next group is group j *)
Definition at_pos (src : nat -> Z) (j k : nat) (cache remain : Z) : Prop :=
  exists r, (r <= 10)%nat /\ remain = Z.of_nat r /\ (10 * k = j + r)%nat /\ (r <> 0%nat -> cache = src (k - 1)%nat / 2 ^ (6 * Z.of_nat (10 - r))).
Lemma at_pos_next src j k cache remain k' cache' remain' : at_pos src j k cache remain ->
  (k', cache', remain') = (if remain =? 0 then (S k, src k, 63 / 6) else (k, cache, remain)) ->
  Z.land cache' (2 ^ 6 - 1) = group src j /\ at_pos src (S j) k' (Z.shiftr cache' 6) (remain' - 1).
Proof.
  intros [r [Hr [-> [Hk Hc]]]] E. change (2 ^ 6 - 1) with (Z.ones 6). rewrite Z.land_ones, Z.shiftr_div_pow2 by lia. change (2 ^ 6) with 64.
  destruct r as [|r].
  - change (Z.of_nat 0 =? 0) with true in E. cbv iota in E. change (63 / 6) with 10 in E. injection E as -> -> ->. assert (Ej : (j = 10 * k + 0)%nat) by lia. unfold group.
    assert (D : (j / 10 = k)%nat) by (symmetry; apply (Nat.div_unique j 10 k 0); lia). assert (M : (j mod 10 = 0)%nat) by (symmetry; apply (Nat.mod_unique j 10 k 0); lia).
    rewrite D, M. change (2 ^ (6 * Z.of_nat 0)) with 1. rewrite Z.div_1_r. split; [reflexivity|]. exists 9%nat. split; [lia|]. split; [lia|]. split; [lia|]. intros _. replace (S k - 1)%nat with k by lia. reflexivity.
  - rewrite (proj2 (Z.eqb_neq (Z.of_nat (S r)) 0)) in E by lia. injection E as -> -> ->. rewrite (Hc ltac:(lia)). unfold group.
    assert (Ej : (j = 10 * (k - 1) + (10 - S r))%nat) by lia.
    assert (D : (j / 10 = k - 1)%nat) by (symmetry; apply (Nat.div_unique j 10 (k - 1) (10 - S r)); lia).
    assert (M : (j mod 10 = 10 - S r)%nat) by (symmetry; apply (Nat.mod_unique j 10 (k - 1) (10 - S r)); lia).
    rewrite D, M. split; [reflexivity|]. exists r. split; [lia|]. split; [lia|]. split; [lia|]. intros H.
    rewrite Z.div_div by (try apply Z.pow_pos_nonneg; lia). change 64 with (2 ^ 6). rewrite <- Z.pow_add_r by lia. do 2 f_equal. lia.
Qed.
Lemma group_range src j : 0 <= group src j < 64. Proof. unfold group. apply Z.mod_pos_bound. lia. Qed.
Lemma picks_cons x xs : 0 <= x < 64 -> picks (x :: xs) = if x <? 52 then nth (Z.to_nat x) letter_bytes x00 :: picks xs else picks xs.
Proof. intros H. unfold picks. cbn [flat_map]. rewrite (pick_idx x H). destruct (x <? 52); reflexivity. Qed.

Lemma rb_loop_sound src fuel : forall j k todo cache remain acc b, at_pos src j k cache remain -> rb_loop fuel src k todo cache remain acc = Some b ->
  exists len, length (picks (groups src j len)) = todo /\ b = rev (picks (groups src j len)) ++ acc.
Proof.
  induction fuel as [|fuel IH]; intros j k todo cache remain acc b Hp E; cbn [rb_loop] in E; [discriminate|]. destruct todo as [|todo]; [injection E as <-; exists 0%nat; split; reflexivity|].
  destruct (if remain =? 0 then (S k, src k, 63 / 6) else (k, cache, remain)) as [[k' c'] r'] eqn:Es.
  destruct (at_pos_next src j k cache remain k' c' r' Hp (eq_sym Es)) as [Eg Hp']. rewrite Eg in E. change (Z.of_nat (length letter_bytes)) with 52 in E.
  destruct (group src j <? 52) eqn:El; destruct (IH _ _ _ _ _ _ _ Hp' E) as [len [L ->]]; exists (S len); unfold groups; cbn [seq map]; fold (groups src (S j) len); rewrite (picks_cons _ _ (group_range src j)), El; cbn [length rev].
  - split; [f_equal; exact L|]. rewrite <- app_assoc. reflexivity.
  - split; [exact L|reflexivity].
Qed.
Lemma rb_loop_complete src len : forall j k todo cache remain acc, at_pos src j k cache remain -> (todo <= length (picks (groups src j len)))%nat ->
  exists b, rb_loop (S len) src k todo cache remain acc = Some b.
Proof.
  induction len as [|len IH]; intros j k todo cache remain acc Hp L.
  - cbn in L. assert (todo = 0)%nat by lia. subst todo. cbn. eauto.
  - destruct todo as [|todo]; [cbn [rb_loop]; eauto|]. change (rb_loop (S (S len)) src k (S todo) cache remain acc) with
      (let '(k, cache, remain) := if remain =? 0 then (S k, src k, 63 / 6) else (k, cache, remain) in
       let idx := Z.land cache (2 ^ 6 - 1) in
       if idx <? Z.of_nat (length letter_bytes) then rb_loop (S len) src k todo (Z.shiftr cache 6) (remain - 1) (nth (Z.to_nat idx) letter_bytes x00 :: acc)
       else rb_loop (S len) src k (S todo) (Z.shiftr cache 6) (remain - 1) acc).
    destruct (if remain =? 0 then (S k, src k, 63 / 6) else (k, cache, remain)) as [[k' c'] r'] eqn:Es.
    destruct (at_pos_next src j k cache remain k' c' r' Hp (eq_sym Es)) as [Eg Hp']. cbn zeta. rewrite Eg. change (Z.of_nat (length letter_bytes)) with 52.
    unfold groups in L. cbn [seq map] in L. fold (groups src (S j) len) in L. rewrite (picks_cons _ _ (group_range src j)) in L.
    destruct (group src j <? 52); apply (IH _ _ _ _ _ _ Hp'); cbn [length] in L; lia.
Qed.
Lemma start_pos src : at_pos src 0 1 (src 0%nat) (63 / 6).
Proof. exists 10%nat. split; [lia|]. split; [reflexivity|]. split; [lia|]. intros _. change (2 ^ (6 * Z.of_nat (10 - 10))) with 1. rewrite Z.div_1_r. reflexivity. Qed.
Lemma letter_bytes_letters : Forall letter letter_bytes.
Proof. apply Forall_forall. intros b H. unfold letter_bytes in H. cbn in H. repeat (destruct H as [<-|H]; [unfold letter; cbn; lia|]). destruct H. Qed.
Lemma picks_letters xs : Forall letter (picks xs).
Proof.
  induction xs as [|x xs IH]; [constructor|]. unfold picks. cbn [flat_map]. apply Forall_app. split; [|exact IH]. destruct (pick x) as [b|] eqn:E; [|constructor]. constructor; [|constructor].
  apply nth_error_In in E. pose proof letter_bytes_letters as H. rewrite Forall_forall in H. apply H. exact E.
Qed.

(* C76: RandomBytes(n) returns once the source has given n numbers below 52, and then the n letters they stand for, last to first; in any
   case n ASCII letters *)
Theorem random_bytes_letters src n b fuel : random_bytes fuel src n = Some b ->
  length b = n /\ Forall letter b /\ exists len, length (picks (groups src 0 len)) = n /\ b = rev (picks (groups src 0 len)).
Proof.
  intros E. destruct (rb_loop_sound src fuel 0 1 n _ _ [] b (start_pos src) E) as [len [L ->]]. rewrite app_nil_r. split; [rewrite rev_length; exact L|].
  split; [apply Forall_rev, picks_letters|eauto].
Qed.
Theorem random_bytes_returns src n : (exists b fuel, random_bytes fuel src n = Some b) <-> exists len, (n <= length (picks (groups src 0 len)))%nat.
Proof.
  split.
  - intros [b [fuel E]]. destruct (random_bytes_letters src n b fuel E) as [_ [_ [len [L _]]]]. exists len. lia.
  - intros [len L]. destruct (rb_loop_complete src len 0 1 n _ _ [] (start_pos src) L) as [b E]. eauto.
Qed.
(* each letter is the image of exactly one number: the letters are equally likely when the numbers are *)
Theorem letters_fair b : letter b -> exists x, 0 <= x < 64 /\ pick x = Some b /\ forall y, 0 <= y < 64 -> pick y = Some b -> y = x.
Proof.
  intros H. assert (C : exists x, 0 <= x < 52 /\ pick x = Some b).
  { unfold letter in H. destruct b; cbn in H; try lia; match goal with |- exists x, _ /\ pick x = Some ?b =>
      let n := eval vm_compute in (Z.of_N (if (bN b <? 91)%N then bN b - 39 else bN b - 97)%N) in exists n; split; [lia|vm_compute; reflexivity] end. }
  destruct C as [x [Hx E]]. exists x. split; [lia|]. split; [exact E|]. intros y Hy Ey.
  rewrite pick_idx in E, Ey by lia. destruct (Z.ltb_spec y 52); [|discriminate]. destruct (Z.ltb_spec x 52); [|lia].
  assert (N : NoDup letter_bytes). { unfold letter_bytes. cbn. repeat (constructor; [cbn; intros HH; repeat (destruct HH as [HH|HH]; [discriminate HH|]); exact HH|]). constructor. }
  rewrite NoDup_nth with (d := x00) in N. assert (Z.to_nat y = Z.to_nat x); [|lia].
  apply N; [change (length letter_bytes) with 52%nat; lia..|congruence].
Qed.
Example random_ex : random_bytes 100 (fun _ => 2 ^ 62 + 12345678901234) 4 <> None.
Proof. vm_compute. discriminate. Qed.

(* RightPad: exactly limit bytes, the text cut or filled up with spaces *)
Theorem right_pad_spec s limit : 0 <= limit -> exists r, right_pad s limit = Some r /\ Z.of_nat (length r) = limit /\
  (Z.of_nat (length s) <= limit -> exists n, r = s ++ repeat " "%byte n) /\ (limit <= Z.of_nat (length s) -> exists rest, s = r ++ rest).
Proof.
  intros H. unfold right_pad. rewrite (proj2 (Z.ltb_ge limit 0)) by lia. eexists. split; [reflexivity|]. set (k := Z.to_nat limit). replace limit with (Z.of_nat k) by lia.
  split; [rewrite firstn_length, app_length, repeat_length; lia|]. rewrite firstn_app. split.
  - intros L. rewrite firstn_all2 by lia. exists (k - length s)%nat. f_equal.
    assert (R : forall m n, (m <= n)%nat -> firstn m (repeat " "%byte n) = repeat " "%byte m) by (induction m as [|m IHm]; intros [|n] Hn; try reflexivity; [lia|cbn; f_equal; apply IHm; lia]). apply R. lia.
  - intros L. replace (k - length s)%nat with 0%nat by lia. cbn [firstn]. rewrite app_nil_r. exists (skipn k s). symmetry. apply firstn_skipn.
Qed.
Theorem right_pad_panics s limit : right_pad s limit = None <-> limit < 0.
Proof. unfold right_pad. destruct (Z.ltb_spec limit 0); split; intros; congruence || lia. Qed.

(* ---- the message of maximum length ---- *)
Lemma letter_printable w : Forall letter w -> Forall printable w.
Proof. apply Forall_impl. intros b H. unfold letter in H. unfold printable. lia. Qed.
Lemma letter_word max w : Forall letter w -> (1 <= length w <= max)%nat -> word max w.
Proof. intros H L. split; [exact L|apply letter_printable, H]. Qed.
Lemma letter_value w : Forall letter w -> word_value w = Some w.
Proof.
  intros H. unfold word_value. destruct (bseqb w (lit "-")) eqn:E; [|reflexivity]. apply bseqb_eq in E. subst w. inversion H as [|? ? H1 _]; subst. unfold letter in H1. cbn in H1. lia.
Qed.
Definition the_time : time := Time 2018 12 31 23 59 59 999999000 (-86340).
(* the fields of testing.go put together as RFC 5424 demands *)
Definition max_text (host app proc mid text : bytes) : bytes :=
  lit "<191>999 " ++ max_rfc3339micro ++ lit " " ++ host ++ lit " " ++ app ++ lit " " ++ proc ++ lit " " ++ mid ++ lit " - " ++ text.
Definition sized (w : bytes) (n : N) : Prop := Forall letter w /\ N.of_nat (length w) = n.
Lemma max_ts : ts_text max_rfc3339micro the_time.
Proof.
  exists (lit "2018"), (lit "12"), (lit "31"), (lit "23"), (lit "59"), (lit "59"), (lit ".999999"), (lit "-23:59").
  assert (N : forall w, Forall digit w <-> forallb (fun b => (48 <=? bN b)%N && (bN b <=? 57)%N) w = true).
  { intros w. rewrite forallb_forall, Forall_forall. split; intros H b Hb; specialize (H b Hb); [unfold digit in H; rewrite andb_true_iff, !N.leb_le; lia|rewrite andb_true_iff, !N.leb_le in H; exact H]. }
  unfold num. rewrite !N. cbn [t_year t_month t_day t_hour t_min t_sec t_nsec t_off the_time]. split; [reflexivity|].
  split; [split; [reflexivity|]; split; [reflexivity|]; split; [reflexivity|lia]|].
  split; [split; [reflexivity|]; split; [reflexivity|]; split; [reflexivity|lia]|].
  split; [split; [reflexivity|]; split; [reflexivity|]; split; [reflexivity|change (month_length 12 2018) with 31; lia]|].
  split; [split; [reflexivity|]; split; [reflexivity|]; split; [reflexivity|lia]|].
  split; [split; [reflexivity|]; split; [reflexivity|]; split; [reflexivity|lia]|].
  split; [split; [reflexivity|]; split; [reflexivity|]; split; [reflexivity|lia]|]. split.
  - change (lit ".999999") with ("."%byte :: lit "999999"). change 999999000 with (dec (lit "999999") * 10 ^ (9 - Z.of_nat (length (lit "999999")))). apply f_some; [cbn; lia|apply N; reflexivity].
  - change (-86340) with (- (23 * 3600 + 59 * 60)). apply (z_minus (lit "23") (lit "59")); (split; [reflexivity|]; split; [apply N; reflexivity|]; split; [reflexivity|lia]).
Qed.
Theorem max_message m host app proc mid text : sized host (N.of_nat max_hostname_len) -> sized app (N.of_nat max_appname_len) -> sized proc (N.of_nat max_procid_len) ->
  sized mid (N.of_nat max_msgid_len) -> Forall letter text -> text <> [] ->
  snd (parse m (max_text host app proc mid text)) = Ret (Some (Message (Some 23) (Some 7) (Some max_priority) (Some the_time) (Some host) (Some app) (Some proc) (Some mid) (Some text) max_version None)) None
  /\ N.of_nat (length (max_text host app proc mid text)) = (511 + N.of_nat (length text))%N.
Proof.
  intros [H1 L1] [H2 L2] [H3 L3] [H4 L4] H5 Hne. unfold max_hostname_len, max_appname_len, max_procid_len, max_msgid_len in *. split.
  - apply parse_accepts_grammar. exists (lit "191"), (lit "999"), max_rfc3339micro, host, app, proc, mid, (lit "-"), (lit " " ++ text), 191, 999, (Some the_time), None, (nonempty text).
    split; [unfold max_text, syslog_text; reflexivity|].
    split. { split; [repeat (constructor; [unfold digit; cbn; lia|]); constructor|]. split; [reflexivity|]. split; [lia|]. right. exists "1"%byte, (lit "91"). split; [reflexivity|discriminate]. }
    split. { split; [repeat (constructor; [unfold digit; cbn; lia|]); constructor|]. split; [reflexivity|]. split; [lia|]. right. exists "9"%byte, (lit "99"). split; [reflexivity|discriminate]. }
    split; [right; eexists; split; [reflexivity|exact max_ts]|].
    split; [apply letter_word; [exact H1|lia]|]. split; [apply letter_word; [exact H2|lia]|]. split; [apply letter_word; [exact H3|lia]|]. split; [apply letter_word; [exact H4|lia]|].
    split; [constructor|]. split.
    + constructor. intros _ r E. exfalso. unfold BOM in E. rewrite E in H5. inversion H5 as [|? ? Hb _]; subst. unfold letter in Hb. vm_compute in Hb. destruct Hb as [[_ Hb]|[_ Hb]]; apply Hb; reflexivity.
    + rewrite !letter_value by assumption. destruct text; [congruence|]. reflexivity.
  - unfold max_text. rewrite !app_length. change (length (lit "<191>999 ")) with 9%nat. change (length max_rfc3339micro) with 32%nat. change (length (lit " ")) with 1%nat. change (length (lit " - ")) with 3%nat. lia.
Qed.

(* MaxMessage makes 8192 bytes, the default maximum of the octet counting parser: the message comes through; LongerMaxMessage makes 65529
   bytes: refused by default, and let through by WithMaxMessageLength(65529) *)
Theorem max_message_transport opts before rd host app proc mid text : sized host (N.of_nat max_hostname_len) -> sized app (N.of_nat max_appname_len) -> sized proc (N.of_nat max_procid_len) ->
  sized mid (N.of_nat max_msgid_len) -> opts_max opts < 2 ^ 63 - 20 -> well_behaved rd ->
  let ok := Result (Some (Message (Some 23) (Some 7) (Some max_priority) (Some the_time) (Some host) (Some app) (Some proc) (Some mid) (Some text) max_version None)) None in
  (sized text max_message_len -> content rd = lit "8192 " ++ max_text host app proc mid text -> 8192 <= opts_max opts -> emitted opts before rd = Some [ok])
  /\ (sized text longer_max_message_len -> content rd = lit "65529 " ++ max_text host app proc mid text ->
      emitted opts before rd = Some [if opts_max opts <? 65529 then Result None (Some (ETooLong 65529 (opts_max opts))) else ok]).
Proof.
  intros H1 H2 H3 H4 Hm Hw ok.
  assert (Dig : forall w, Forall digit w <-> forallb (fun b => (48 <=? bN b)%N && (bN b <=? 57)%N) w = true).
  { intros w. rewrite forallb_forall, Forall_forall. split; intros H b Hb; specialize (H b Hb); [unfold digit in H; rewrite andb_true_iff, !N.leb_le; lia|rewrite andb_true_iff, !N.leb_le in H; exact H]. }
  assert (K : forall ds, ds <> [] -> Forall digit ds -> Forall letter text -> text <> [] -> dec ds = 511 + Z.of_nat (length text) -> dec ds <= opts_max opts ->
     content rd = ds ++ lit " " ++ max_text host app proc mid text -> emitted opts before rd = Some [ok]).
  { intros ds D1 D2 Ht Hne D3 D4 Hc. set (f := Frame ds [] (max_text host app proc mid text)).
    assert (HP : forall best, answer best (f_msg f) = (r_msg ok, None)).
    { intros best. unfold answer. cbn [f_msg f]. rewrite (proj1 (max_message (new_machine best false) host app proc mid text H1 H2 H3 H4 Ht Hne)). reflexivity. }
    rewrite (well_formed_stream opts before rd [f] Hm Hw).
    - cbn [map]. unfold answer_result. rewrite HP. reflexivity.
    - cbn [map concat]. rewrite app_nil_r. exact Hc.
    - discriminate.
    - constructor; [|constructor]. split; [|reflexivity]. split; [exact D1|]. split; [exact D2|]. cbn [f_len f_msg f f_gap].
      pose proof (proj2 (max_message (new_machine false false) host app proc mid text H1 H2 H3 H4 Ht Hne)) as L. split; [lia|]. split; [exact D4|]. split; [eexists; reflexivity|auto].
    - right. constructor; [|constructor]. rewrite HP. reflexivity. }
  split.
  - intros [Ht L] Hc Hle. unfold max_message_len in L. apply (K (lit "8192")); [discriminate|apply Dig; reflexivity|exact Ht|intros ->; discriminate| | |exact Hc]; change (dec (lit "8192")) with 8192; lia.
  - intros [Ht L] Hc. unfold longer_max_message_len in L. destruct (Z.ltb_spec (opts_max opts) 65529) as [Hlt|Hge].
    + rewrite (too_long opts before rd [] (lit "65529") (map IByte (lit " " ++ max_text host app proc mid text)) Hm); [reflexivity| |constructor|right; constructor|discriminate|apply Dig; reflexivity| |change (dec (lit "65529")) with 65529; lia].
      * change (frames_items []) with (@nil item). pose proof (delivered_well_behaved rd Hw) as E. rewrite Hc in E. cbn [List.app]. rewrite <- map_app. exact E.
      * intros b r E. assert (E2 : exists r2, map IByte (lit " " ++ max_text host app proc mid text) = IByte " "%byte :: r2) by (eexists; reflexivity). destruct E2 as [r2 E2]. rewrite E2 in E. clear E2. injection E as <- _. intros [H|H]; revert H; vm_compute; intuition discriminate.
    + apply (K (lit "65529")); [discriminate|apply Dig; reflexivity|exact Ht|intros ->; discriminate| | |exact Hc]; change (dec (lit "65529")) with 65529; lia.
Qed.
(* YearTime is the timestamp a Stamp message gets with WithYear of the same year *)
From Verif Require M3164Def M3164 Grammar3164 Thm3164.
Theorem year_time_timestamp m s p pri v host tail data msg e :
  Grammar3164.stamp_text s p -> data = lit "<" ++ pri ++ lit ">" ++ s ++ lit " " ++ host ++ lit " " ++ tail -> pri_text pri v -> word 255 host ->
  M3164Def.timezone (M3164.config_of m) = None -> M3164Def.loc (M3164.config_of m) = None -> snd (M3164.parse m data) = M3164.Ret (Some msg) e ->
  M3164.timestamp msg = Some (year_time (M3164Def.yyyy (M3164.config_of m)) (sp_month p) (sp_day p) (sp_hour p) (sp_min p) (sp_sec p)).
Proof.
  intros Hs Hd Hp Hw Hz Hl Hr.
  assert (Hh : Thm3164.hdr_text (M3164.config_of m) pri s host tail v (Grammar3164.stamp_value (M3164.config_of m) p) data).
  { split; [exact Hd|]. split; [exact Hp|]. split; [left; eauto|exact Hw]. }
  destruct (Thm3164.header3164_fields _ _ _ _ _ _ _ _ _ _ Hh Hr) as [_ [_ [_ [_ [Ht _]]]]].
  rewrite Ht, (Thm3164.stamp_value_fixed _ 0 s p Hs (or_introl (conj Hz eq_refl)) Hl). f_equal. unfold year_time, date_in, fixed_zone, utc. cbn [l_unix l_offset]. rewrite Z.sub_0_r. reflexivity.
Qed.
Example max_message_ex : exists host text, sized host (N.of_nat max_hostname_len) /\ sized text max_message_len.
Proof.
  exists (repeat "x"%byte 255), (repeat "y"%byte (N.to_nat 7681)). split; (split; [apply Forall_forall; intros b H; apply repeat_spec in H; subst b; unfold letter; cbn; lia|rewrite repeat_length; reflexivity]).
Qed.
