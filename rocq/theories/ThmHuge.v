(* C69: WithMaxMessageLength with one of the twenty largest ints. *)
From Verif Require Import Bytes CommonFacts Common M5424Def M5424 MBuilder Bufio MOctet SpecOctet ROctet ThmOctet.
Local Open Scope Z_scope.

Lemma cap_huge max : 2 ^ 63 - 20 <= max < 2 ^ 63 -> cap_of max = 16.
Proof. intros H. unfold cap_of, add_int, to_int. rewrite Z.mod_small by lia. destruct (Z.ltb_spec (max + 20) (2 ^ 63)); lia. Qed.

(* the result for a message longer than sixteen bytes: an error, and with best effort what the machine makes of the first sixteen *)
Definition cut_result (best : bool) (m : bytes) : result :=
  let e := EAfter (Token EOF (firstn 16 m)) (Z.of_nat (length m)) in
  if best then Result (fst (answer true (firstn 16 m))) (Some (match snd (answer true (firstn 16 m)) with Some x => EMachine x | None => e end))
  else Result None (Some e).

Lemma huge_run max best : 2 ^ 63 - 20 <= max < 2 ^ 63 -> forall fs f first fr rest rs,
  Forall (fun g => frame_ok max g /\ (length (f_msg g) <= 16)%nat) fs -> (best = true \/ Forall (fun g => snd (answer best (f_msg g)) = None) fs) ->
  frame_ok max fr -> (16 < length (f_msg fr))%nat ->
  crun 16 f max best first (frames_items fs ++ frame_items fr ++ rest) = Some rs -> rs = map (fun g => answer_result best (f_msg g)) fs ++ [cut_result best (f_msg fr)].
Proof.
  intros Hm. assert (H0 : to_int 0 <= 16) by (unfold to_int; cbn; lia). induction fs as [|g fs IH]; intros f first fr rest rs HF Ha Hfr H16 E; (destruct f as [|f]; [discriminate|]); cbn [crun] in E.
  - destruct Hfr as [H1 [H2 [H3 [H4 [[t H5] H6]]]]]. cbn [frames_items map concat app] in E. unfold frame_items in E. rewrite <- !app_assoc in E. cbn [app] in E.
    rewrite cscan_id in E by exact H0. rewrite (ascan_len 0 false (f_len fr) (f_gap fr) _ H1 H2 H6) in E. cbn [is_typ typ] in E. rewrite andb_false_r in E.
    unfold cbody in E. cbn [is_typ typ negb] in E. rewrite (parse_uint_dec _ H2), Z.min_l in E by lia. rewrite to_int_id in E by lia.
    destruct (Z.ltb_spec max (dec (f_len fr))); [lia|]. change (cscan 16 (dec (f_len fr)) false (IByte " " :: map IByte (f_msg fr) ++ rest)) with (Token WS [" "%byte], dec (f_len fr), true, map IByte (f_msg fr) ++ rest) in E.
    cbn [is_typ typ negb] in E.
    assert (S : cscan 16 (dec (f_len fr)) true (map IByte (f_msg fr) ++ rest) = (Token EOF (firstn 16 (f_msg fr)), dec (f_len fr), true, map IByte (skipn 16 (f_msg fr)) ++ rest)).
    { assert (A : exists r, aread (map IByte (f_msg fr) ++ rest) = ("<"%byte, r)) by (rewrite H5; eexists; reflexivity). destruct A as [r A]. unfold cscan. rewrite A.
      change (is_nonzero_digit "<") with false. change (beqb "<" x00) with false. change (beqb "<" " ") with false. change (beqb "<" "<") with true. cbv iota.
      destruct (Z.ltb_spec 0 (dec (f_len fr))); [|lia]. cbn [andb]. rewrite to_int_id by lia. destruct (Z.ltb_spec (dec (f_len fr)) 0); [lia|]. rewrite Z.min_r by lia.
      change (Z.to_nat 16) with 16%nat. rewrite take_map by lia. destruct (Z.leb_spec (dec (f_len fr)) 16); [lia|]. reflexivity. }
    rewrite S in E. cbn [is_typ typ negb tlit] in E. rewrite to_int_id in E by lia. rewrite firstn_length, Nat.min_l in E by lia. destruct (Z.ltb_spec (Z.of_nat 16) (dec (f_len fr))) as [_|]; [|lia].
    cbn [andb] in E. rewrite H3 in E. unfold cut_result. destruct best.
    + destruct (answer true (firstn 16 (f_msg fr))) as [mm e]. injection E as <-. cbn [map app fst snd]. destruct e; reflexivity.
    + injection E as <-. reflexivity.
  - inversion HF as [|? ? [Hg Hg16] HF']; subst. destruct Hg as [H1 [H2 [H3 [H4 [[t H5] H6]]]]]. cbn [frames_items map concat] in E. fold (frames_items fs) in E. unfold frame_items at 1 in E. rewrite <- !app_assoc in E. cbn [app] in E.
    rewrite cscan_id in E by exact H0. rewrite (ascan_len 0 false (f_len g) (f_gap g) _ H1 H2 H6) in E. cbn [is_typ typ] in E. rewrite andb_false_r in E.
    unfold cbody in E. cbn [is_typ typ negb] in E. rewrite (parse_uint_dec _ H2), Z.min_l in E by lia. rewrite to_int_id in E by lia.
    destruct (Z.ltb_spec max (dec (f_len g))); [lia|]. rewrite cscan_id in E by (rewrite to_int_id by lia; lia). rewrite ascan_space in E. cbn [is_typ typ negb] in E.
    rewrite cscan_id in E by (rewrite to_int_id by lia; lia).
    assert (Hp : 0 < dec (f_len g)) by (rewrite H3, H5; cbn [length]; lia).
    rewrite H5 in E at 1. cbn [map app] in E. rewrite ascan_lt in E by (lia || reflexivity).
    match type of E with context[take_bytes _ (IByte "<" :: map IByte t ++ ?X)] => change (IByte "<" :: map IByte t ++ X) with (map IByte ("<"%byte :: t) ++ X) in E end.
    rewrite <- H5 in E. rewrite take_map in E by lia. rewrite H3, Nat2Z.id, firstn_all, skipn_all in E. cbn [is_typ typ negb tlit map app] in E.
    assert (Ha' : best = true \/ Forall (fun g => snd (answer best (f_msg g)) = None) fs) by (destruct Ha as [Ha|Ha]; [left; exact Ha|right; inversion Ha; assumption]).
    assert (Go : match crun 16 f max best false (frames_items fs ++ frame_items fr ++ rest) with Some rs => Some (answer_result best (f_msg g) :: rs) | None => None end = Some rs).
    { unfold answer_result. destruct (answer best (f_msg g)) as [mm e] eqn:Eg. cbn [fst snd]. destruct best; [exact E|]. destruct Ha as [Ha|Ha]; [discriminate|].
      inversion Ha as [|? ? Hn _]; subst. rewrite Eg in Hn. cbn in Hn. subst e. exact E. }
    clear E. destruct (crun 16 f max best false _) as [rs'|] eqn:Er; [|discriminate]. injection Go as <-. rewrite (IH f false fr rest rs' HF' Ha' Hfr H16 Er). reflexivity.
Qed.

Theorem octet_huge_max opts before rd fs fr rest : 2 ^ 63 - 20 <= opts_max opts < 2 ^ 63 -> eqv (delivered rd) (frames_items fs ++ frame_items fr ++ rest) ->
  Forall (fun g => frame_ok (opts_max opts) g /\ (length (f_msg g) <= 16)%nat) fs -> (opts_best opts = true \/ Forall (fun g => snd (answer (opts_best opts) (f_msg g)) = None) fs) ->
  frame_ok (opts_max opts) fr -> (16 < length (f_msg fr))%nat ->
  emitted opts before rd = Some (map (fun g => answer_result (opts_best opts) (f_msg g)) fs ++ [cut_result (opts_best opts) (f_msg fr)]).
Proof.
  intros Hm Hd HF Ha Hfr H16. destruct (emitted_spec_c opts before rd) as [rs [E1 E2]]. rewrite E1. f_equal. rewrite (cap_huge _ Hm) in E2. rewrite (crun_eqv _ _ _ _ _ _ _ Hd) in E2.
  eapply huge_run; eauto.
Qed.

(* the hypotheses are met: after a message of sixteen bytes, a valid message of eighteen is refused although the maximal length is 2^63-1;
   with the maximal length 2^63-21 it would be accepted *)
Definition huge_opts : list popt := [OMaxLength (2 ^ 63 - 1)].
Definition short_frame : frame := Frame (lit "16") [] (lit "<1>1 - - - - - -").
Definition long_frame : frame := Frame (lit "18") [] (lit "<2>1 - - - - - - a").
Definition huge_reads : reader := [(lit "16 <1>1 - - - - - -18 <2>1 - - - - - - a", None)].
Example octet_huge_max_ex : 2 ^ 63 - 20 <= opts_max huge_opts < 2 ^ 63 /\ eqv (delivered huge_reads) (frames_items [short_frame] ++ frame_items long_frame ++ [])
  /\ frame_ok (opts_max huge_opts) short_frame /\ (length (f_msg short_frame) <= 16)%nat /\ snd (answer false (f_msg short_frame)) = None
  /\ frame_ok (opts_max huge_opts) long_frame /\ (16 < length (f_msg long_frame))%nat /\ snd (answer false (f_msg long_frame)) = None
  /\ emitted huge_opts [] huge_reads = Some [answer_result false (f_msg short_frame); Result None (Some (EAfter (Token EOF (lit "<2>1 - - - - - -")) 18))].
Proof.
  split; [split; vm_compute; congruence|]. split; [apply eqv_refl|].
  assert (F1 : frame_ok (opts_max huge_opts) short_frame).
  { split; [discriminate|]. split; [repeat constructor; vm_compute; congruence|]. split; [reflexivity|]. split; [vm_compute; congruence|]. split; [eexists; reflexivity|left; reflexivity]. }
  assert (F2 : frame_ok (opts_max huge_opts) long_frame).
  { split; [discriminate|]. split; [repeat constructor; vm_compute; congruence|]. split; [reflexivity|]. split; [vm_compute; congruence|]. split; [eexists; reflexivity|left; reflexivity]. }
  assert (A1 : snd (answer false (f_msg short_frame)) = None) by (vm_compute; reflexivity). assert (A2 : snd (answer false (f_msg long_frame)) = None) by (vm_compute; reflexivity).
  assert (L1 : (length (f_msg short_frame) <= 16)%nat) by (vm_compute; lia). assert (L2 : (16 < length (f_msg long_frame))%nat) by (vm_compute; lia).
  do 6 (split; [assumption|]).
  apply (octet_huge_max huge_opts [] huge_reads [short_frame] long_frame []).
  - split; vm_compute; congruence.
  - apply eqv_refl.
  - constructor; [split; assumption|constructor].
  - right. constructor; [exact A1|constructor].
  - exact F2.
  - exact L2.
Qed.
