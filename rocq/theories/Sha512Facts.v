(** * Sha512Facts: Sha512Model computes the functions of Sha512Spec (proofs) *)
From Verif Require Import Base CodecModel CodecSpec CodecFacts Sha512Model Sha512Spec.
From Coq Require Import ZifyBool ZifyNat ZifyN.
Ltac Zify.zify_post_hook ::= idtac.
Ltac dlia := zify; Z.div_mod_to_equations; lia.

(** ** Words *)
Lemma w64_addw x : w64 x = x mod 2 ^ 64.
Proof. reflexivity. Qed.
Lemma addw_word x y : word (addw x y).
Proof. apply N.mod_lt. done. Qed.
Lemma w64_word x : word (w64 x).
Proof. apply N.mod_lt. done. Qed.

Lemma word_bits x n : word x -> 64 <= n -> N.testbit x n = false.
Proof.
  intros Hx Hn. destruct (decide (x = 0)) as [->|Hz]; [apply N.bits_0|].
  apply N.bits_above_log2. apply N.log2_lt_pow2; [lia|]. unfold word in Hx.
  eapply N.lt_le_trans; [exact Hx|]. apply N.pow_le_mono_r; lia.
Qed.

Lemma rot_ROTR r x : 0 < r < 64 -> word x -> rot r x = ROTR r x.
Proof.
  intros Hr Hx. unfold rot, ROTR.
  assert (E : w64 (N.shiftl x (64 - r)) = (x mod 2 ^ r) * 2 ^ (64 - r)).
  { rewrite w64_addw, N.shiftl_mul_pow2.
    replace (2 ^ 64) with (2 ^ r * 2 ^ (64 - r)).
    - apply N.mul_mod_distr_r; by apply N.pow_nonzero.
    - rewrite <- N.pow_add_r. f_equal. lia. }
  rewrite E, N.shiftr_div_pow2.
  assert (D : N.land (x / 2 ^ r) (x mod 2 ^ r * 2 ^ (64 - r)) = 0).
  { apply N.bits_inj. intros n. rewrite N.land_spec, N.bits_0.
    destruct (decide (n < 64 - r)) as [Hn|Hn].
    - rewrite N.mul_pow2_bits_low by done. apply andb_false_r.
    - rewrite N.div_pow2_bits, (word_bits x) by (done || lia). done. }
  rewrite <- N.lxor_lor by done. symmetry. by apply N.add_nocarry_lxor.
Qed.
Lemma shiftr_SHR r x : N.shiftr x r = SHR r x.
Proof. apply N.shiftr_div_pow2. Qed.

Lemma Ch_s x y z : word x -> word z -> Ch x y z = s_Ch x y z.
Proof.
  intros Hx Hz. unfold Ch, s_Ch, NOT. apply N.bits_inj. intros n.
  rewrite !N.lxor_spec, !N.land_spec, !N.lxor_spec.
  destruct (decide (n < 64)) as [Hn|Hn].
  - rewrite N.lnot_spec_low by done.
    by destruct (N.testbit x n), (N.testbit y n), (N.testbit z n).
  - rewrite N.lnot_spec_high, (word_bits x), (word_bits z) by (done || lia). done.
Qed.
Lemma Maj_s x y z : Maj x y z = s_Maj x y z.
Proof.
  unfold Maj, s_Maj. apply N.bits_inj. intros n.
  rewrite ?N.lxor_spec, ?N.lor_spec, ?N.land_spec, ?N.lor_spec.
  by destruct (N.testbit x n), (N.testbit y n), (N.testbit z n).
Qed.
Lemma Sigma0_s x : word x -> Sigma0 x = S0 x.
Proof. intros. unfold Sigma0, S0. by rewrite !rot_ROTR. Qed.
Lemma Sigma1_s x : word x -> Sigma1 x = S1 x.
Proof. intros. unfold Sigma1, S1. by rewrite !rot_ROTR. Qed.
Lemma sigma0_s x : word x -> sigma0 x = g0 x.
Proof. intros. unfold sigma0, g0. by rewrite !rot_ROTR, shiftr_SHR. Qed.
Lemma sigma1_s x : word x -> sigma1 x = g1 x.
Proof. intros. unfold sigma1, g1. by rewrite !rot_ROTR, shiftr_SHR. Qed.

(** Sums modulo 2^64. *)
Lemma addw_w64_l x y : addw (w64 x) y = w64 (x + y).
Proof. unfold addw. rewrite !w64_addw. by apply N.add_mod_idemp_l. Qed.
Lemma addw_w64_r x y : addw x (w64 y) = w64 (x + y).
Proof. unfold addw. rewrite !w64_addw. by apply N.add_mod_idemp_r. Qed.
Lemma addw_w64 x y : addw x y = w64 (x + y).
Proof. reflexivity. Qed.

Lemma w64_w64_l x y : w64 (w64 x + y) = w64 (x + y).
Proof. exact (addw_w64_l x y). Qed.

(** ** Rounds in loop form *)
Definition regs_of (s : words8) : regs :=
  Regs (wa s) (wb s) (wc s) (wd s) (we s) (wf s) (wg s) (wh s).
Definition w8_of (s : regs) : words8 :=
  W8 (ra s) (rb s) (rc s) (rd s) (re s) (rf s) (rg s) (rh s).
Definition words_ok (s : words8) : Prop :=
  word (wa s) /\ word (wb s) /\ word (wc s) /\ word (wd s) /\
  word (we s) /\ word (wf s) /\ word (wg s) /\ word (wh s).

Lemma round_ok s k w : words_ok s -> words_ok (round s k w).
Proof.
  intros (?&?&?&?&?&?&?&?). unfold round, words_ok. cbn [wa wb wc wd we wf wg wh].
  split_and!; try done; apply addw_word.
Qed.

(** The variables a..h after [t] calls: call t passes variable (j - t) mod 8 as
    its j-th argument; [m] is t mod 8. *)
Definition view_v (m : nat) (v : list N) : words8 :=
  let g j := nth ((j + 8 - m) mod 8) v 0 in
  W8 (g 0%nat) (g 1%nat) (g 2%nat) (g 3%nat) (g 4%nat) (g 5%nat) (g 6%nat) (g 7%nat).
Definition args_at (m : nat) : list nat := (λ j, (j + 8 - m) mod 8)%nat <$> seq 0 8.

Lemma length8 (v : list N) : length v = 8%nat ->
  exists a b c d e f g h, v = [a; b; c; d; e; f; g; h].
Proof.
  intros Hl. do 8 (destruct v as [|? v]; [discriminate Hl|]).
  destruct v; [|discriminate Hl]. eauto 10.
Qed.

Local Arguments w64 : simpl never.
Local Arguments addw : simpl never.
Local Arguments Sigma0 : simpl never.
Local Arguments Sigma1 : simpl never.
Local Arguments sigma0 : simpl never.
Local Arguments sigma1 : simpl never.
Local Arguments Ch : simpl never.
Local Arguments Maj : simpl never.
Local Arguments S0 : simpl never.
Local Arguments S1 : simpl never.
Local Arguments s_Ch : simpl never.
Local Arguments s_Maj : simpl never.
Local Arguments N.add : simpl never.

Definition round' (v : words8) (k w : N) : words8 :=
  let T1 := w64 (wh v + Sigma1 (we v) + Ch (we v) (wf v) (wg v) + k + w) in
  let T2 := w64 (Sigma0 (wa v) + Maj (wa v) (wb v) (wc v)) in
  W8 (w64 (T1 + T2)) (wa v) (wb v) (wc v) (w64 (wd v + T1)) (we v) (wf v) (wg v).
Lemma round'_eq v k w : words_ok v -> round' v k w = round v k w.
Proof.
  intros (?&?&?&?&?&?&?&?). unfold round', round.
  rewrite <- Sigma1_s, <- Sigma0_s, <- Ch_s, <- Maj_s by done.
  rewrite !addw_w64.
  assert (E : forall a b c d e, w64 (w64 (w64 (w64 (a + b) + c) + d) + e) = w64 (a + b + c + d + e)).
  { intros. by rewrite (w64_w64_l (a + b) c), (w64_w64_l (a + b + c) d), (w64_w64_l (a + b + c + d) e). }
  by rewrite !(E (wh v)).
Qed.

Lemma Round_view m v k w : (m < 8)%nat -> length v = 8%nat ->
  exists v', Round v (args_at m) k w = Ok v' /\ length v' = 8%nat /\
    view_v ((m + 1) mod 8) v' = round' (view_v m v) k w.
Proof.
  intros Hm Hl. destruct (length8 v Hl) as (a&b&c&d&e&f&g&h&->).
  unfold args_at, view_v.
  do 8 (destruct m as [|m]; [eexists; split; [reflexivity|]; split; reflexivity|]). lia.
Qed.

(** The words w0..w15 before call [t] >= 16: word t - 16 + j is kept in
    variable (t + j) mod 16; [m] is t mod 16. *)
Definition view_w (m : nat) (ws : list (option N)) : list (option N) :=
  (λ j, nth ((m + j) mod 16) ws None) <$> seq 0 16.
Definition warg_at (m : nat) : warg :=
  WUpd m ((m + 14) mod 16) ((m + 9) mod 16) ((m + 1) mod 16).
Definition warg_at' (m : nat) : warg :=
  WTmp m ((m + 14) mod 16) ((m + 9) mod 16) ((m + 1) mod 16).

Lemma length16 {A} (v : list A) : length v = 16%nat ->
  exists a b c d e f g h i j k l m n o p, v = [a; b; c; d; e; f; g; h; i; j; k; l; m; n; o; p].
Proof.
  intros Hl. do 16 (destruct v as [|? v]; [discriminate Hl|]).
  destruct v; [|discriminate Hl]. eauto 20.
Qed.

Definition next_w (W : list N) : N :=
  w64 (nth 0 W 0 + (sigma1 (nth 14 W 0) + nth 9 W 0 + sigma0 (nth 1 W 0))).

Lemma warg_view m chunk ws W : (m < 16)%nat -> length ws = 16%nat -> length W = 16%nat ->
  view_w m ws = Some <$> W ->
  exists ws', eval_warg chunk ws (warg_at m) = Ok (next_w W, ws') /\ length ws' = 16%nat /\
    view_w ((m + 1) mod 16) ws' = Some <$> (tl W ++ [next_w W]).
Proof.
  intros Hm Hl HW. destruct (length16 ws Hl) as (?&?&?&?&?&?&?&?&?&?&?&?&?&?&?&?&->).
  destruct (length16 W HW) as (?&?&?&?&?&?&?&?&?&?&?&?&?&?&?&?&->).
  unfold view_w, warg_at.
  do 16 (destruct m as [|m];
    [cbn; intros [=]; subst; eexists; split; [reflexivity|]; split; reflexivity|]). lia.
Qed.
Lemma warg_view' m chunk ws W : (m < 16)%nat -> length ws = 16%nat -> length W = 16%nat ->
  take 15 (view_w m ws) = Some <$> take 15 W ->
  eval_warg chunk ws (warg_at' m) = Ok (next_w W, ws).
Proof.
  intros Hm Hl HW. destruct (length16 ws Hl) as (?&?&?&?&?&?&?&?&?&?&?&?&?&?&?&?&->).
  destruct (length16 W HW) as (?&?&?&?&?&?&?&?&?&?&?&?&?&?&?&?&->).
  unfold view_w, warg_at', next_w. rewrite !N.add_assoc.
  do 16 (destruct m as [|m]; [cbn; intros [=]; subst; reflexivity|]). lia.
Qed.

(** ** The eighty calls *)
Lemma calls_first : take 16 (rc_args <$> round_calls) = (λ t, args_at (t mod 8)) <$> seq 0 16 /\
  take 16 (rc_w <$> round_calls) = (λ t, WRead t (8 * t)) <$> seq 0 16.
Proof. split; vm_compute; reflexivity. Qed.
Lemma calls_mid : take 62 (drop 16 (rc_args <$> round_calls)) = (λ t, args_at (t mod 8)) <$> seq 16 62 /\
  take 62 (drop 16 (rc_w <$> round_calls)) = (λ t, warg_at (t mod 16)) <$> seq 16 62.
Proof. split; vm_compute; reflexivity. Qed.
Lemma calls_last : drop 78 (rc_args <$> round_calls) = (λ t, args_at (t mod 8)) <$> seq 78 2 /\
  drop 78 (rc_w <$> round_calls) = (λ t, warg_at' (t mod 16)) <$> seq 78 2.
Proof. split; vm_compute; reflexivity. Qed.

Lemma mod_S t k : (k <> 0)%nat -> ((t mod k + 1) mod k = S t mod k)%nat.
Proof. intros. rewrite Nat.add_mod_idemp_l by done. by rewrite Nat.add_1_r. Qed.

Lemma call_ok chunk v ws t k a w ws' :
  length v = 8%nat -> words_ok (view_v (t mod 8) v) -> eval_warg chunk ws a = Ok (w, ws') ->
  exists v', do_call chunk (v, ws) (RC (args_at (t mod 8)) k a) = Ok (v', ws') /\
    length v' = 8%nat /\ view_v (S t mod 8) v' = round (view_v (t mod 8) v) k w.
Proof.
  intros Hl Hok Ea. pose proof (Nat.mod_upper_bound t 8).
  destruct (Round_view (t mod 8) v k w) as (v' & E & Hl' & Ev); [lia|done|].
  exists v'. unfold do_call. cbn [fst snd rc_args rc_k rc_w]. rewrite Ea. cbn [bind fst snd].
  rewrite E. cbn [bind]. split_and!; [done..|].
  rewrite <- mod_S, Ev by done. by apply round'_eq.
Qed.

Lemma chunk_read chunk t ws : (t < 16)%nat -> length ws = 16%nat ->
  eval_warg chunk ws (WRead t (8 * t)) =
  Ok (be_value (take 8 (drop (8 * t) chunk)), <[t := Some (be_value (take 8 (drop (8 * t) chunk)))]> ws).
Proof. done. Qed.

(** First sixteen calls. *)
Definition cwords (chunk : list N) (t n : nat) : list N :=
  (λ i, be_value (take 8 (drop (8 * i) chunk))) <$> seq t n.
Lemma run_first chunk n : forall t (ks : list N) v done,
  (t + n = 16)%nat -> length ks = n -> length v = 8%nat -> words_ok (view_v (t mod 8) v) ->
  done = cwords chunk 0 t ->
  exists v', foldM (do_call chunk) (v, (Some <$> done) ++ replicate n None)
       (zip_with (λ t k, RC (args_at (t mod 8)) k (WRead t (8 * t))) (seq t n) ks) =
       Ok (v', Some <$> cwords chunk 0 16) /\
    length v' = 8%nat /\
    view_v (16 mod 8) v' = rounds (view_v (t mod 8) v) (zip ks (cwords chunk t n)) /\
    words_ok (view_v (16 mod 8) v').
Proof.
  induction n as [|n IH]; intros t ks v dn Ht Hks Hl Hok ->.
  - assert (t = 16%nat) as -> by lia. exists v. cbn [seq zip_with foldM].
    rewrite app_nil_r. destruct ks; [|done]. done.
  - destruct ks as [|k ks]; [done|]. cbn [seq zip_with foldM].
    set (x := be_value (take 8 (drop (8 * t) chunk))).
    assert (Ew : eval_warg chunk ((Some <$> cwords chunk 0 t) ++ replicate (S n) None) (WRead t (8 * t))
      = Ok (x, (Some <$> cwords chunk 0 (S t)) ++ replicate n None)).
    { unfold eval_warg. f_equal. f_equal. fold x.
      assert (Hlen : length (Some <$> cwords chunk 0 t) = t) by (unfold cwords; by rewrite !fmap_length, seq_length).
      rewrite insert_app_r_alt by lia. rewrite Hlen, Nat.sub_diag. cbn [replicate insert list_insert].
      unfold cwords at 2. rewrite seq_S, fmap_app, fmap_app, <- app_assoc. done. }
    destruct (call_ok chunk v _ t k _ _ _ Hl Hok Ew) as (v1 & E1 & Hl1 & Ev1).
    rewrite E1. cbn [bind].
    destruct (IH (S t) ks v1 (cwords chunk 0 (S t))) as (v2 & E2 & Hl2 & Ev2 & Hok2);
      [lia|by injection Hks|done| |done|].
    { rewrite Ev1. by apply round_ok. }
    exists v2. split_and!; [done|done| |done]. rewrite Ev2, Ev1. done.
Qed.

(** The message schedule in loop form. *)
Fixpoint sched_loop (k : nat) (win : list N) : list N :=
  match k with
  | O => []
  | S k' => next_w win :: sched_loop k' (tl win ++ [next_w win])
  end.
Lemma sched_loop_length k win : length (sched_loop k win) = k.
Proof. revert win. induction k; intros; cbn [sched_loop length]; [done|by rewrite IHk]. Qed.
Lemma next_w_word win : word (next_w win).
Proof. apply w64_word. Qed.
Lemma win_step win : length win = 16%nat -> Forall word win ->
  length (tl win ++ [next_w win]) = 16%nat /\ Forall word (tl win ++ [next_w win]).
Proof.
  intros Hl Hw. destruct win as [|x win]; [done|]. cbn [tl]. split.
  - rewrite app_length. cbn [length] in *. lia.
  - apply Forall_app. split; [by inversion Hw|]. constructor; [apply next_w_word|done].
Qed.

Lemma nth_app_win (pre win : list N) i t : length win = 16%nat -> (i < 16)%nat ->
  (t = length pre + i)%nat -> nth t (pre ++ win) 0 = nth i win 0.
Proof. intros ? ? ->. rewrite app_nth2 by lia. f_equal. lia. Qed.
Lemma nth_word win i : Forall word win -> word (nth i win 0).
Proof.
  intros Hw. destruct (decide (i < length win)%nat).
  - eapply Forall_forall; [done|]. apply elem_of_list_In, nth_In. done.
  - rewrite nth_overflow by lia. done.
Qed.

Lemma schedule_loop k : forall pre win, length win = 16%nat -> Forall word win ->
  schedule k (pre ++ win) = pre ++ win ++ sched_loop k win.
Proof.
  induction k as [|k IH]; intros pre win Hl Hw; cbn [schedule sched_loop].
  - by rewrite app_nil_r.
  - set (t := length (pre ++ win)).
    assert (Et : t = (length pre + 16)%nat) by (unfold t; rewrite app_length; lia).
    unfold W_at.
    rewrite (nth_app_win pre win 14), (nth_app_win pre win 9), (nth_app_win pre win 1),
      (nth_app_win pre win 0) by lia.
    match goal with |- schedule k (_ ++ [?x]) = _ => assert (Ex : x = next_w win) end.
    { unfold next_w. rewrite <- sigma0_s, <- sigma1_s by by apply nth_word.
      set (a := sigma1 _). set (b := nth 9 win 0). set (c := sigma0 _). set (d := nth 0 win 0).
      rewrite !addw_w64. rewrite (w64_w64_l (a + b) c), (w64_w64_l (a + b + c) d).
      f_equal. lia. }
    rewrite Ex. destruct win as [|x win]; [done|].
    destruct (win_step (x :: win)) as [Hl' Hw']; [done..|].
    pose proof (IH (pre ++ [x]) (win ++ [next_w (x :: win)]) Hl' Hw') as E.
    cbn [tl]. rewrite <- !app_assoc in E. rewrite <- !app_assoc.
    cbn [app] in E |- *. rewrite E. done.
Qed.

(** Calls 16 to 77. *)
Lemma run_mid chunk n : forall t (ks : list N) v ws win,
  length ks = n -> length v = 8%nat -> words_ok (view_v (t mod 8) v) ->
  length ws = 16%nat -> length win = 16%nat -> view_w (t mod 16) ws = Some <$> win ->
  exists v' ws' win', foldM (do_call chunk) (v, ws)
       (zip_with (λ t k, RC (args_at (t mod 8)) k (warg_at (t mod 16))) (seq t n) ks) =
       Ok (v', ws') /\
    length v' = 8%nat /\ length ws' = 16%nat /\ length win' = 16%nat /\
    view_v ((t + n) mod 8) v' = rounds (view_v (t mod 8) v) (zip ks (sched_loop n win)) /\
    words_ok (view_v ((t + n) mod 8) v') /\
    view_w ((t + n) mod 16) ws' = Some <$> win' /\
    forall k, sched_loop (n + k) win = sched_loop n win ++ sched_loop k win'.
Proof.
  induction n as [|n IH]; intros t ks v ws win Hks Hl Hok Hlw Hlwin Hview.
  - exists v, ws, win. cbn [seq zip_with foldM]. rewrite Nat.add_0_r.
    destruct ks; [|done]. split_and!; done.
  - destruct ks as [|k ks]; [done|]. cbn [seq zip_with foldM].
    pose proof (Nat.mod_upper_bound t 16).
    destruct (warg_view (t mod 16) chunk ws win) as (ws1 & Ew & Hlw1 & Hv1); [lia|done..|].
    rewrite mod_S in Hv1 by done.
    destruct (call_ok chunk v _ t k _ _ _ Hl Hok Ew) as (v1 & E1 & Hl1 & Ev1).
    rewrite E1. cbn [bind].
    destruct (IH (S t) ks v1 ws1 (tl win ++ [next_w win]))
      as (v2 & ws2 & win2 & E2 & Hl2 & Hlw2 & Hlwin2 & Ev2 & Hok2 & Hv2 & Hs2);
      [by injection Hks|done| |done| |done|].
    { rewrite Ev1. by apply round_ok. }
    { destruct win; [done|]. cbn [tl]. rewrite app_length. cbn [length] in *. lia. }
    exists v2, ws2, win2. rewrite Nat.add_succ_r.
    split_and!; [done..| |done|done|].
    + cbn [sched_loop]. rewrite Nat.add_succ_l in Ev2. rewrite Ev2, Ev1. done.
    + intros k'. rewrite Nat.add_succ_l. cbn [sched_loop app]. by rewrite Hs2.
Qed.

(** The last two calls. *)
Lemma run_last chunk (t : nat) k1 k2 v ws win :
  length v = 8%nat -> words_ok (view_v (t mod 8) v) ->
  length ws = 16%nat -> length win = 16%nat -> view_w (t mod 16) ws = Some <$> win ->
  exists v' ws', foldM (do_call chunk) (v, ws)
       [RC (args_at (t mod 8)) k1 (warg_at' (t mod 16));
        RC (args_at (S t mod 8)) k2 (warg_at' (S t mod 16))] = Ok (v', ws') /\
    length v' = 8%nat /\
    view_v (S (S t) mod 8) v' = rounds (view_v (t mod 8) v) (zip [k1; k2] (sched_loop 2 win)).
Proof.
  intros Hl Hok Hlw Hlwin Hview.
  pose proof (Nat.mod_upper_bound t 16). pose proof (Nat.mod_upper_bound (S t) 16).
  assert (Ew : eval_warg chunk ws (warg_at' (t mod 16)) = Ok (next_w win, ws)).
  { apply warg_view'; [lia|done|done|]. rewrite Hview. by rewrite fmap_take. }
  destruct (call_ok chunk v ws t k1 _ _ _ Hl Hok Ew) as (v1 & E1 & Hl1 & Ev1).
  destruct win as [|x win]; [done|].
  assert (Hl16 : length win = 15%nat) by (cbn [length] in Hlwin; lia).
  assert (Ew2 : eval_warg chunk ws (warg_at' (S t mod 16)) = Ok (next_w (win ++ [next_w (x :: win)]), ws)).
  { apply warg_view'; [lia|done| |].
    - rewrite app_length. cbn [length] in *. lia.
    - rewrite take_app_alt by done. rewrite <- mod_S by done.
      revert Hview. unfold view_w. generalize (t mod 16)%nat as m, (Nat.mod_upper_bound t 16 ltac:(done)).
      intros m Hm E. assert (win = tl (x :: win)) as -> by done. rewrite fmap_tail, <- E.
      clear -Hm. do 16 (destruct m as [|m]; [reflexivity|]). lia. }
  assert (Hok1 : words_ok (view_v (S t mod 8) v1)) by (rewrite Ev1; by apply round_ok).
  destruct (call_ok chunk v1 ws (S t) k2 _ _ _ Hl1 Hok1 Ew2) as (v2 & E2 & Hl2 & Ev2).
  exists v2, ws. cbn [foldM]. rewrite E1. cbn [bind]. rewrite E2. cbn [bind].
  split_and!; [done..|]. rewrite Ev2, Ev1. done.
Qed.

(** ** Constants *)
Lemma cbrt_spec k : forall x c, c ^ 3 <= x < (c + 2 ^ N.of_nat k) ^ 3 -> cube_root x (cbrt k x c).
Proof.
  induction k as [|k IH]; intros x c Hx; cbn [cbrt]; [exact Hx|].
  assert (E2 : 2 ^ N.of_nat (S k) = 2 ^ N.of_nat k + 2 ^ N.of_nat k).
  { rewrite Nat2N.inj_succ, N.pow_succ_r'. lia. }
  rewrite E2 in Hx.
  destruct (N.leb_spec ((c + 2 ^ N.of_nat k) ^ 3) x) as [Hc|Hc]; apply IH.
  - replace (c + 2 ^ N.of_nat k + 2 ^ N.of_nat k) with (c + (2 ^ N.of_nat k + 2 ^ N.of_nat k)) by lia. split; [done|apply Hx].
  - split; [apply Hx|done].
Qed.
Lemma cube_root_unique x c d : cube_root x c -> cube_root x d -> c = d.
Proof.
  assert (M : forall a b, a ^ 3 < b ^ 3 -> a < b).
  { intros a b Hab. apply N.nle_gt. intros Hle. apply (N.pow_le_mono_l _ _ 3) in Hle. lia. }
  intros [? ?] [? ?].
  assert (c < d + 1) by (apply M; lia). assert (d < c + 1) by (apply M; lia). lia.
Qed.

Definition K : list N := rc_k <$> round_calls.
(** The integer part of the cube root of a number below 512. *)
Definition small_root (p : N) : N :=
  if p <? 8 then 1 else if p <? 27 then 2 else if p <? 64 then 3 else if p <? 125 then 4
  else if p <? 216 then 5 else if p <? 343 then 6 else 7.
Definition is_root_b (p k : N) : bool :=
  let c := k + small_root p * 2 ^ 64 in
  (p <? 512) && (k <? 2 ^ 64) && (c ^ 3 <=? p * 2 ^ 192) && (p * 2 ^ 192 <? (c + 1) ^ 3).
Definition primes_lit : list N :=
  [2; 3; 5; 7; 11; 13; 17; 19; 23; 29; 31; 37; 41; 43; 47; 53; 59; 61; 67; 71; 73; 79; 83; 89;
   97; 101; 103; 107; 109; 113; 127; 131; 137; 139; 149; 151; 157; 163; 167; 173; 179; 181; 191;
   193; 197; 199; 211; 223; 227; 229; 233; 239; 241; 251; 257; 263; 269; 271; 277; 281; 283; 293;
   307; 311; 313; 317; 331; 337; 347; 349; 353; 359; 367; 373; 379; 383; 389; 397; 401; 409].
Lemma primes_eq : primes = primes_lit.
Proof. vm_compute. reflexivity. Qed.
Lemma K_roots : forallb (λ pk, is_root_b pk.1 pk.2) (zip primes_lit K) = true.
Proof. vm_compute. reflexivity. Qed.

Lemma s_K_eq : s_K = K.
Proof.
  assert (G : forall ps ks, length ps = length ks ->
    forallb (λ pk : N * N, is_root_b pk.1 pk.2) (zip ps ks) = true ->
    (λ p, cbrt 70 (p * 2 ^ 192) 0 mod 2 ^ 64) <$> ps = ks).
  { induction ps as [|p ps IH]; intros [|k ks] Hl Hb; try done.
    cbn [zip zip_with forallb fst snd] in Hb. apply andb_true_iff in Hb as [H1 H2].
    rewrite fmap_cons. f_equal; [|apply IH; [by injection Hl|done]].
    unfold is_root_b in H1. cbv zeta in H1.
    apply andb_true_iff in H1 as [H1 Hd]. apply andb_true_iff in H1 as [H1 Hc].
    apply andb_true_iff in H1 as [Ha Hb'].
    apply N.ltb_lt in Ha, Hb', Hd. apply N.leb_le in Hc.
    assert (E : cbrt 70 (p * 2 ^ 192) 0 = k + small_root p * 2 ^ 64).
    { eapply cube_root_unique; [apply cbrt_spec|split; [exact Hc|exact Hd]].
      split; [by cbn; lia|]. rewrite N.add_0_l.
      apply N.lt_le_trans with (512 * 2 ^ 192).
      - apply N.mul_lt_mono_pos_r; [by apply N.neq_0_lt_0, N.pow_nonzero|done].
      - vm_compute. discriminate. }
    rewrite E, N.mod_add by done. by apply N.mod_small. }
  unfold s_K. rewrite primes_eq. apply G; [reflexivity|exact K_roots].
Qed.

Lemma is_K_K t k : K !! t = Some k -> is_K t k.
Proof.
  rewrite <- s_K_eq. unfold s_K. rewrite list_lookup_fmap. intros E.
  destruct (primes !! t) as [p|] eqn:Ep; [|done]. cbn [fmap option_fmap option_map] in E.
  apply (inj Some) in E as <-. eexists p, _. split_and!; [done| |reflexivity].
  assert (Hp : p <= 409).
  { assert (HF : Forall (λ p, p <= 409) primes).
    { rewrite primes_eq. apply (bool_decide_unpack _). vm_compute. done. }
    rewrite Forall_lookup in HF. by eapply HF. }
  apply cbrt_spec. split; [by cbn; lia|]. rewrite N.add_0_l.
  apply N.le_lt_trans with (409 * 2 ^ 192).
  - by apply N.mul_le_mono_r.
  - vm_compute. reflexivity.
Qed.

Lemma calls_eq : round_calls =
  zip_with (λ t k, RC (args_at (t mod 8)) k (WRead t (8 * t))) (seq 0 16) (take 16 K) ++
  zip_with (λ t k, RC (args_at (t mod 8)) k (warg_at (t mod 16))) (seq 16 62) (take 62 (drop 16 K)) ++
  [RC (args_at (78 mod 8)) (nth 78 K 0) (warg_at' (78 mod 16));
   RC (args_at (79 mod 8)) (nth 79 K 0) (warg_at' (79 mod 16))].
Proof. vm_compute. reflexivity. Qed.

(** ** Transform *)
Lemma value_be_value bs : be_value bs = value bs.
Proof.
  induction bs as [|b bs IH] using rev_ind; [done|].
  rewrite be_value_snoc, IH. clear IH.
  induction bs as [|c bs IH]; cbn [app value].
  - unfold size. cbn. lia.
  - rewrite <- IH. rewrite N.mul_add_distr_r.
    replace (256 ^ size (bs ++ [b])) with (256 ^ size bs * 256); [lia|].
    unfold size. rewrite app_length. cbn [length]. rewrite Nat.add_1_r, Nat2N.inj_succ, N.pow_succ_r'. lia.
Qed.

Lemma cwords_eq chunk : cwords chunk 0 16 = block_words chunk.
Proof. unfold cwords, block_words. apply list_fmap_ext. intros. apply value_be_value. Qed.
Lemma block_words_word blk : byte_string blk -> Forall word (block_words blk).
Proof.
  intros Hb. unfold block_words. apply Forall_fmap, Forall_forall. intros i _. cbn.
  rewrite <- value_be_value. unfold word.
  eapply N.lt_le_trans; [apply be_value_bound|].
  - by apply Forall_take, Forall_drop.
  - change (2 ^ 64) with (256 ^ 8). apply N.pow_le_mono_r; [done|].
    unfold size. rewrite take_length. lia.
Qed.

Lemma rounds_app v a b : rounds v (a ++ b) = rounds (rounds v a) b.
Proof. revert v. induction a as [|[k w] a IH]; intros v; cbn; [done|apply IH]. Qed.

Lemma foldM_app {A S} (f : S -> A -> res S) s a b :
  foldM f s (a ++ b) = let* s' := foldM f s a in foldM f s' b.
Proof.
  revert s. induction a as [|x a IH]; intros s; cbn [app foldM bind]; [done|].
  destruct (f s x); cbn [bind]; [apply IH|done..].
Qed.

Lemma zip_split (K0 k1 k2 k3 M L1 L2 : list N) : K0 = k1 ++ k2 ++ k3 -> length k1 = length M ->
  length k2 = length L1 -> zip K0 (M ++ L1 ++ L2) = zip k1 M ++ zip k2 L1 ++ zip k3 L2.
Proof. intros -> ? ?. by rewrite !zip_with_app. Qed.

Lemma K_split : K = take 16 K ++ take 62 (drop 16 K) ++ [nth 78 K 0; nth 79 K 0].
Proof. vm_compute. reflexivity. Qed.
Lemma K_len1 : length (take 16 K) = 16%nat.
Proof. vm_compute. reflexivity. Qed.
Lemma K_len2 : length (take 62 (drop 16 K)) = 62%nat.
Proof. vm_compute. reflexivity. Qed.

Lemma run_calls s chunk : words_ok s -> byte_string chunk ->
  exists v ws, foldM (do_call chunk)
      ([wa s; wb s; wc s; wd s; we s; wf s; wg s; wh s], replicate 16 None) round_calls = Ok (v, ws) /\
    length v = 8%nat /\
    view_v 0 v = rounds s (zip K (block_words chunk ++ sched_loop 64 (block_words chunk))).
Proof.
  intros Hok Hb. remember [wa s; wb s; wc s; wd s; we s; wf s; wg s; wh s] as v0 eqn:Ev.
  assert (Ev0 : view_v (0 mod 8) v0 = s) by (subst v0; by destruct s).
  assert (Hl0 : length v0 = 8%nat) by by subst v0. clear Ev.
  destruct (run_first chunk 16 0 (take 16 K) v0 []) as (v1 & E1 & Hl1 & Hv1 & Hok1);
    [done|exact K_len1|done|by rewrite Ev0|done|].
  change (cwords chunk 0 16) with (cwords chunk 0 16) in Hv1.
  rewrite cwords_eq in E1, Hv1. remember (block_words chunk) as M eqn:EM.
  assert (HlM : length M = 16%nat) by (subst M; unfold block_words; by rewrite fmap_length, seq_length).
  clear EM.
  destruct (run_mid chunk 62 16 (take 62 (drop 16 K)) v1 (Some <$> M) M)
    as (v2 & ws2 & win2 & E2 & Hl2 & Hlw2 & Hlwin2 & Ev2 & Hok2 & Hv2 & Hs2);
    [exact K_len2|done|done|by rewrite fmap_length|done| |].
  { destruct (length16 M HlM) as (?&?&?&?&?&?&?&?&?&?&?&?&?&?&?&?&->). reflexivity. }
  change (16 + 62)%nat with 78%nat in *.
  destruct (run_last chunk 78 (nth 78 K 0) (nth 79 K 0) v2 ws2 win2)
    as (v3 & ws3 & E3 & Hl3 & Ev3); [done..|].
  exists v3, ws3. split_and!; [|done|].
  - rewrite calls_eq, foldM_app.
    change (replicate 16 None) with ((Some <$> ([] : list N)) ++ replicate 16 None).
    rewrite E1. cbn [bind]. rewrite foldM_app, E2. cbn [bind]. exact E3.
  - change (view_v 0 v3) with (view_v (80 mod 8) v3). rewrite Ev3, Ev2, Hv1, Ev0.
    pose proof (Hs2 2%nat) as Hs. change (62 + 2)%nat with 64%nat in Hs. rewrite Hs.
    rewrite <- !rounds_app. rewrite (zip_split _ _ _ _ _ _ _ K_split).
    + by rewrite app_assoc.
    + rewrite HlM. exact K_len1.
    + rewrite sched_loop_length. exact K_len2.
Qed.

Lemma compress_eq s M r : rounds s (zip s_K (schedule 64 M)) = r ->
  compress s M = W8 (addw (wa s) (wa r)) (addw (wb s) (wb r)) (addw (wc s) (wc r)) (addw (wd s) (wd r))
     (addw (we s) (we r)) (addw (wf s) (wf r)) (addw (wg s) (wg r)) (addw (wh s) (wh r)).
Proof. intros <-. unfold compress. reflexivity. Qed.

Lemma Transform_ok s chunk : words_ok s -> byte_string chunk ->
  sha_Transform (regs_of s) chunk = Ok (regs_of (compress s (block_words chunk))).
Proof.
  intros Hok Hb. destruct (run_calls s chunk Hok Hb) as (v & ws & E & Hl & Ev).
  assert (HlM : length (block_words chunk) = 16%nat)
    by (unfold block_words; by rewrite fmap_length, seq_length).
  assert (Esch : schedule 64 (block_words chunk) = block_words chunk ++ sched_loop 64 (block_words chunk)).
  { pose proof (schedule_loop 64 [] _ HlM (block_words_word _ Hb)) as Esch.
    rewrite !app_nil_l in Esch. exact Esch. }
  rewrite <- s_K_eq in Ev.
  rewrite (compress_eq s (block_words chunk) (view_v 0 v)).
  - clear Ev Esch. destruct (length8 v Hl) as (a&b&c&d&e&f&g&h&->).
    unfold sha_Transform. cbn [regs_of ra rb rc rd re rf rg rh]. rewrite E. reflexivity.
  - clear E. rewrite Ev, Esch. reflexivity.
Qed.

(** ** Write *)
Lemma compress_ok s M : words_ok (compress s M).
Proof. unfold compress, words_ok. cbn [wa wb wc wd we wf wg wh]. split_and!; apply addw_word. Qed.
Lemma hash_blocks_ok k : forall v bs, words_ok v -> words_ok (hash_blocks k v bs).
Proof. induction k as [|k IH]; intros v bs Hv; cbn [hash_blocks]; [done|]. apply IH, compress_ok. Qed.
Lemma hash_blocks_add a : forall b v bs,
  hash_blocks (a + b) v bs = hash_blocks b (hash_blocks a v bs) (drop (128 * a) bs).
Proof.
  induction a as [|a IH]; intros b v bs.
  - rewrite Nat.mul_0_r, drop_0. done.
  - rewrite Nat.add_succ_l. cbn [hash_blocks]. rewrite IH, drop_drop. f_equal. f_equal. lia.
Qed.
Lemma hash_blocks_app k : forall v bs x, (128 * k <= length bs)%nat ->
  hash_blocks k v (bs ++ x) = hash_blocks k v bs.
Proof.
  induction k as [|k IH]; intros v bs x Hl; cbn [hash_blocks]; [done|].
  rewrite take_app_le, drop_app_le by lia. apply IH. rewrite drop_length. lia.
Qed.

Record rep (iv : words8) (c : csha) (m : list N) : Prop := Rep {
  rep_bytes : cs_bytes c = size m;
  rep_buf : length (cs_buf c) = 128%nat;
  rep_s : cs_s c = regs_of (hash_blocks (length m / 128) iv m);
  rep_rest : take (length m mod 128) (cs_buf c) = drop (128 * (length m / 128)) m }.

Lemma nat_divmod (l : nat) : (l = 128 * (l / 128) + l mod 128)%nat.
Proof. apply Nat.div_mod. done. Qed.

Lemma size_mod128 {A} (m : list A) : size m mod 128 = N.of_nat (length m mod 128).
Proof. unfold size. rewrite Nat2N.inj_mod. done. Qed.

(** Processing one block that completes the message to a multiple of 128. *)
Lemma block_step iv m d : words_ok iv -> byte_string (m ++ d) ->
  (length (m ++ d) = 128 * (length m / 128) + 128)%nat ->
  sha_Transform (regs_of (hash_blocks (length m / 128) iv m)) (drop (128 * (length m / 128)) m ++ d) =
  Ok (regs_of (hash_blocks (length (m ++ d) / 128) iv (m ++ d))).
Proof.
  intros Hiv Hb Hl.
  set (q := (length m / 128)%nat) in *.
  assert (Hq : (128 * q <= length m)%nat) by (unfold q; apply Nat.mul_div_le; done).
  assert (Eq : (length (m ++ d) / 128 = q + 1)%nat).
  { rewrite Hl. replace (128 * q + 128)%nat with ((q + 1) * 128)%nat by lia. by apply Nat.div_mul. }
  rewrite Eq, hash_blocks_add.
  rewrite Transform_ok.
  - cbn [hash_blocks]. rewrite hash_blocks_app by done.
    rewrite drop_app_le by done. rewrite take_ge; [reflexivity|].
    rewrite app_length, drop_length. rewrite app_length in Hl. lia.
  - by apply hash_blocks_ok.
  - rewrite <- drop_app_le by done. by apply Forall_drop.
Qed.

Lemma write_chunks_ok iv : words_ok iv -> forall f m data,
  byte_string (m ++ data) -> (length m mod 128 = 0)%nat -> (length data < 128 * f)%nat ->
  size (m ++ data) < 2 ^ 64 ->
  exists m' data', write_chunks f (regs_of (hash_blocks (length m / 128) iv m)) (size m) data =
      Ok (regs_of (hash_blocks (length m' / 128) iv m'), size m', data') /\
    m ++ data = m' ++ data' /\ (length m' mod 128 = 0)%nat /\ (length data' < 128)%nat.
Proof.
  intros Hiv. induction f as [|f IH]; intros m data Hb Hm Hd Hs; [lia|].
  cbn [write_chunks].
  assert (Ec : (128 <=? size data) = (128 <=? length data)%nat).
  { unfold size. destruct (Nat.leb_spec 128 (length data)); lia. }
  rewrite Ec. destruct (Nat.leb_spec 128 (length data)) as [Hge|Hlt].
  - assert (Hlm : (length m = 128 * (length m / 128))%nat) by (pose proof (nat_divmod (length m)); lia).
    assert (Hlt : length (take 128 data) = 128%nat) by (rewrite take_length; lia).
    pose proof (block_step iv m (take 128 data) Hiv) as Hst.
    rewrite <- Hlm in Hst at 2. rewrite drop_ge in Hst by lia. cbn [app] in Hst.
    rewrite Hst; [|rewrite <- (take_drop 128 data), app_assoc in Hb; by apply Forall_app in Hb as [? _]
                  |rewrite app_length; lia].
    cbn [bind].
    replace (w64 (size m + 128)) with (size (m ++ take 128 data)).
    2:{ unfold size in *. rewrite app_length in *. rewrite Hlt. rewrite w64_addw, N.mod_small; lia. }
    destruct (IH (m ++ take 128 data) (drop 128 data)) as (m' & data' & E & Em & Hm' & Hd').
    + by rewrite <- app_assoc, take_drop.
    + rewrite app_length, Hlt. rewrite Hlm.
      replace (128 * (length m / 128) + 128)%nat with ((length m / 128 + 1) * 128)%nat by lia.
      by apply Nat.mod_mul.
    + rewrite drop_length. lia.
    + by rewrite <- app_assoc, take_drop.
    + exists m', data'. split_and!; [done| |done|done].
      by rewrite <- Em, <- app_assoc, take_drop.
  - exists m, data. split_and!; done.
Qed.

Lemma take_insert_mid {A} (buf d : list A) r : (r + length d <= length buf)%nat ->
  take (r + length d) (take r buf ++ d ++ drop (r + length d) buf) = take r buf ++ d.
Proof.
  intros Hl. rewrite app_assoc. apply take_app_alt. rewrite app_length, take_length. lia.
Qed.

Lemma buf_copy_ok buf off d : (off + length d <= length buf)%nat ->
  buf_copy buf (N.of_nat off) d = Ok (take off buf ++ d ++ drop (off + length d) buf).
Proof.
  intros Hl. unfold buf_copy. rewrite Nat2N.id.
  destruct (N.leb_spec (N.of_nat off + size d) (size buf)) as [_|Hc]; [done|].
  unfold size in Hc. lia.
Qed.

Lemma buf_copy_length (buf : list N) off d : (off + length d <= length buf)%nat ->
  length (take off buf ++ d ++ drop (off + length d) buf) = length buf.
Proof. intros. rewrite !app_length, take_length, drop_length. lia. Qed.

Lemma Write_ok iv c m d : words_ok iv -> byte_string (m ++ d) -> size (m ++ d) < 2 ^ 64 ->
  rep iv c m -> exists c', sha_Write c d = Ok c' /\ rep iv c' (m ++ d).
Proof.
  intros Hiv Hb Hs [Hbytes Hbuf Hst Hrest]. unfold sha_Write.
  rewrite Hbytes, size_mod128. set (r := (length m mod 128)%nat) in *.
  assert (Hr : (r < 128)%nat) by (apply Nat.mod_upper_bound; done).
  pose proof (nat_divmod (length m)) as Hdm. fold r in Hdm.
  (* first step *)
  match goal with |- exists c', bind ?X _ = _ /\ _ =>
    assert (G : exists c1 m1 data1, X = Ok (c1, data1, N.of_nat (length m1 mod 128)) /\
      rep iv c1 m1 /\ m ++ d = m1 ++ data1 /\
      (length m1 mod 128 = 0 \/ length m1 mod 128 + length data1 < 128)%nat) end.
  { destruct (negb (N.of_nat r =? 0) && (128 <=? N.of_nat r + size d)) eqn:Ec.
    - apply andb_true_iff in Ec as [Ec1 Ec2].
      apply negb_true_iff, N.eqb_neq in Ec1. apply N.leb_le in Ec2. unfold size in Ec2.
      assert (Hk : N.to_nat (128 - N.of_nat r) = (128 - r)%nat) by lia. rewrite Hk.
      set (t := take (128 - r) d).
      assert (Hlt : length t = (128 - r)%nat) by (unfold t; rewrite take_length; lia).
      rewrite buf_copy_ok by lia. cbn [bind].
      rewrite (drop_ge (cs_buf c) (r + length t)) by lia.
      rewrite app_nil_r, Hrest, Hst.
      assert (Hb' : byte_string (m ++ t)).
      { unfold t. rewrite <- (take_drop (128 - r) d), app_assoc in Hb. by apply Forall_app in Hb as [? _]. }
      rewrite block_step; [|done|done|rewrite app_length; lia]. cbn [bind].
      assert (Hl1 : (length (m ++ t) mod 128 = 0)%nat).
      { rewrite app_length, Hlt. rewrite Hdm.
        replace (128 * (length m / 128) + r + (128 - r))%nat with ((length m / 128 + 1) * 128)%nat by lia.
        by apply Nat.mod_mul. }
      eexists _, (m ++ t), (drop (128 - r) d). rewrite Hl1. split; [reflexivity|].
      split_and!; [|by unfold t; rewrite <- app_assoc, take_drop|by left].
      assert (Hsz : size (m ++ t) <= size (m ++ d)).
      { unfold size. rewrite !app_length. unfold t. rewrite take_length. lia. }
      split; cbn [cs_bytes cs_buf cs_s].
      + rewrite w64_addw, N.mod_small; unfold size in *; rewrite app_length in *; lia.
      + rewrite app_length, drop_length. lia.
      + done.
      + rewrite Hl1, take_0. symmetry. apply drop_ge.
        pose proof (nat_divmod (length (m ++ t))). lia.
    - eexists c, m, d. split; [reflexivity|]. split_and!; [done|done|]. fold r.
      apply andb_false_iff in Ec as [Ec|Ec].
      + apply negb_false_iff, N.eqb_eq in Ec. left. lia.
      + apply N.leb_gt in Ec. unfold size in Ec. right. lia. }
  destruct G as (c1 & m1 & data1 & E1 & [Hbytes1 Hbuf1 Hst1 Hrest1] & Emd & Hcase).
  rewrite E1. cbn [bind]. clear E1. rewrite Emd in *. clear Emd m d Hbytes Hst Hrest Hdm r Hr.
  (* full chunks *)
  assert (G : exists m' data', write_chunks (S (length data1)) (cs_s c1) (cs_bytes c1) data1 =
      Ok (regs_of (hash_blocks (length m' / 128) iv m'), size m', data') /\
    m1 ++ data1 = m' ++ data' /\ (length m1 mod 128 = length m' mod 128)%nat /\
    (length m' mod 128 + length data' < 128)%nat /\
    take (length m' mod 128) (cs_buf c1) = drop (128 * (length m' / 128)) m').
  { rewrite Hbytes1, Hst1. destruct Hcase as [H0|Hlt].
    - destruct (write_chunks_ok iv Hiv (S (length data1)) m1 data1) as (m' & d' & E & Em & Hm' & Hd');
        [done|done|lia|done|].
      exists m', d'. split_and!; [done|done|lia|lia|].
      rewrite Hm', take_0. symmetry. apply drop_ge. pose proof (nat_divmod (length m')). lia.
    - exists m1, data1. split_and!; [|done..].
      cbn [write_chunks]. destruct (N.leb_spec 128 (size data1)) as [Hc|_]; [|done].
      unfold size in Hc. lia. }
  destruct G as (m' & data' & E & Em & Hmm & Hlt & Hrest').
  rewrite E. cbn [bind]. rewrite Em in *. clear E Em.
  pose proof (nat_divmod (length m')) as Hdm.
  assert (Hdiv : (length (m' ++ data') / 128 = length m' / 128)%nat).
  { rewrite app_length. symmetry. apply Nat.div_unique with (length m' mod 128 + length data')%nat; lia. }
  assert (Hmod : (length (m' ++ data') mod 128 = length m' mod 128 + length data')%nat).
  { rewrite app_length. symmetry. apply Nat.mod_unique with (length m' / 128)%nat; lia. }
  assert (Hhb : hash_blocks (length (m' ++ data') / 128) iv (m' ++ data') =
                hash_blocks (length m' / 128) iv m').
  { rewrite Hdiv. apply hash_blocks_app. lia. }
  destruct (N.ltb_spec 0 (size data')) as [Hp|Hz].
  - rewrite Hmm, buf_copy_ok by lia. cbn [bind]. eexists. split; [reflexivity|].
    split; cbn [cs_bytes cs_buf cs_s].
    + rewrite w64_addw, N.mod_small; unfold size in *; rewrite app_length in *; lia.
    + rewrite buf_copy_length; lia.
    + by rewrite Hhb.
    + rewrite Hmod, take_insert_mid by lia. rewrite Hrest', Hdiv.
      by rewrite drop_app_le by lia.
  - assert (data' = []) as -> by (destruct data'; [done|]; unfold size in Hz; cbn [length] in Hz; lia).
    rewrite app_nil_r in *. eexists. split; [reflexivity|].
    split; cbn [cs_bytes cs_buf cs_s]; done.
Qed.

Lemma Writes_ok iv (ds : list (list N)) : words_ok iv -> forall c m, byte_string (m ++ concat ds) ->
  size (m ++ concat ds) < 2 ^ 64 ->
  rep iv c m -> exists c', foldM sha_Write c ds = Ok c' /\ rep iv c' (m ++ concat ds).
Proof.
  intros Hiv. induction ds as [|d ds IH]; intros c m Hb Hs Hr; cbn [concat foldM] in *.
  - rewrite app_nil_r. eauto.
  - rewrite app_assoc in Hb, Hs.
    assert (size (m ++ d) <= size ((m ++ d) ++ concat ds)) by (unfold size; rewrite (app_length (m ++ d)); lia).
    destruct (Write_ok iv c m d Hiv) as (c1 & E1 & Hr1);
      [by apply Forall_app in Hb as [? _]|lia|done|].
    rewrite E1. cbn [bind]. destruct (IH c1 (m ++ d) Hb Hs Hr1) as (c2 & E2 & Hr2).
    exists c2. rewrite app_assoc. done.
Qed.

(** ** Padding and output *)
Lemma be_bytes_add b : forall a x, be_bytes (a + b) x = be_bytes a (x / 256 ^ N.of_nat b) ++ be_bytes b x.
Proof.
  induction b as [|b IH]; intros a x.
  - rewrite Nat.add_0_r. cbn [be_bytes]. change (256 ^ N.of_nat 0) with 1.
    by rewrite N.div_1_r, app_nil_r.
  - rewrite Nat.add_succ_r. cbn [be_bytes]. rewrite IH, app_assoc. f_equal. f_equal.
    rewrite N.div_div; [|done|by apply N.pow_nonzero]. f_equal. f_equal. by rewrite pow256_S.
Qed.
Lemma sizedesc_eq len : 8 * len < 2 ^ 64 ->
  replicate 8 0 ++ be_bytes 8 (w64 (N.shiftl len 3)) = be 16 (8 * len).
Proof.
  intros Hl. rewrite <- be_bytes_be. change 16%nat with (8 + 8)%nat. rewrite be_bytes_add.
  rewrite N.div_small by exact Hl. rewrite N.shiftl_mul_pow2, w64_addw.
  change (2 ^ 3) with 8. rewrite (N.mul_comm len), N.mod_small by done. reflexivity.
Qed.
Lemma zeros_eq len : (239 - len mod 128) mod 128 = zeros_needed len.
Proof.
  unfold zeros_needed. rewrite (N.add_mod len 17) by done. change (17 mod 128) with 17.
  pose proof (N.mod_lt len 128). set (x := len mod 128) in *.
  assert (x < 128) by lia. clearbody x. clear -H0. dlia.
Qed.

Lemma finish_ok iv c m : words_ok iv -> byte_string m -> size m < 2 ^ 61 -> rep iv c m ->
  exists c', sha_finish c = Ok c' /\ cs_s c' = regs_of (digest iv m).
Proof.
  intros Hiv Hb Hs Hr. unfold sha_finish. rewrite (rep_bytes _ _ _ Hr).
  rewrite sizedesc_eq by (change (2 ^ 64) with (8 * 2 ^ 61); lia). rewrite zeros_eq.
  set (pad := 128 :: replicate (N.to_nat (zeros_needed (size m))) 0).
  assert (Hpad : (length pad <= 128)%nat).
  { unfold pad. cbn [length]. rewrite replicate_length. unfold zeros_needed.
    pose proof (N.mod_lt (128 - (size m + 17) mod 128) 128). lia. }
  assert (Hbp : byte_string (m ++ pad)).
  { apply Forall_app. split; [done|]. unfold pad. constructor; [done|].
    apply Forall_replicate. done. }
  assert (Hsp : size (m ++ pad) < 2 ^ 61 + 128).
  { unfold size in *. rewrite app_length. lia. }
  destruct (Write_ok iv c m pad Hiv Hbp) as (c1 & E1 & Hr1); [|done|].
  { eapply N.lt_trans; [exact Hsp|]. done. }
  rewrite E1. cbn [bind].
  destruct (Write_ok iv c1 (m ++ pad) (be 16 (8 * size m)) Hiv) as (c2 & E2 & Hr2); [| |done|].
  { apply Forall_app. split; [done|]. rewrite <- be_bytes_be. apply be_bytes_byte. }
  { apply N.lt_trans with (2 ^ 61 + 144); [|done].
    unfold size in *. rewrite (app_length (m ++ pad)), be_length. lia. }
  exists c2. split; [done|]. rewrite (rep_s _ _ _ Hr2). unfold digest, padded, pad.
  rewrite <- !app_assoc. reflexivity.
Qed.

Lemma rep_init iv buf : length buf = 128%nat -> rep iv (CSHA (regs_of iv) buf 0) [].
Proof. intros. split; done. Qed.

Lemma IV_512_eq : Initialize = regs_of IV_512.
Proof. vm_compute. reflexivity. Qed.
Definition IV_512_256_lit : words8 := w8_of Initialize256.
Lemma IV_512_256_eq : Initialize256 = regs_of IV_512_256.
Proof.
  assert (E : IV_512_256 = IV_512_256_lit); [|by rewrite E].
  unfold IV_512_256, digest.
  assert (E1 : (length (padded ascii_name) / 128 = 1)%nat) by (vm_compute; reflexivity).
  rewrite E1. cbn [hash_blocks].
  assert (E2 : exists r, rounds IV_gen (zip K (schedule 64 (block_words (take 128 (padded ascii_name))))) = r /\
    W8 (addw (wa IV_gen) (wa r)) (addw (wb IV_gen) (wb r)) (addw (wc IV_gen) (wc r)) (addw (wd IV_gen) (wd r))
     (addw (we IV_gen) (we r)) (addw (wf IV_gen) (wf r)) (addw (wg IV_gen) (wg r)) (addw (wh IV_gen) (wh r)) = IV_512_256_lit).
  { eexists. split; [vm_compute; reflexivity|]. vm_compute. reflexivity. }
  destruct E2 as (r & E2 & E3). rewrite <- s_K_eq in E2.
  by rewrite (compress_eq _ _ _ E2).
Qed.
Lemma IV_512_ok : words_ok IV_512.
Proof. unfold words_ok. split_and!; vm_compute; reflexivity. Qed.
Lemma digest_ok iv m : words_ok iv -> words_ok (digest iv m).
Proof. apply hash_blocks_ok. Qed.
Lemma IV_512_256_ok : words_ok IV_512_256.
Proof.
  assert (E : IV_512_256 = w8_of (regs_of IV_512_256)) by (by destruct IV_512_256).
  rewrite E, <- IV_512_256_eq. unfold words_ok. split_and!; vm_compute; reflexivity.
Qed.

Lemma words_bytes_take v : take 32 (words_bytes v) = be 8 (wa v) ++ be 8 (wb v) ++ be 8 (wc v) ++ be 8 (wd v).
Proof.
  unfold words_bytes. rewrite !app_assoc, <- !app_assoc.
  rewrite <- (take_app_alt (be 8 (wa v) ++ be 8 (wb v) ++ be 8 (wc v) ++ be 8 (wd v))
    (be 8 (we v) ++ be 8 (wf v) ++ be 8 (wg v) ++ be 8 (wh v)) 32).
  - by rewrite <- !app_assoc.
  - rewrite !app_length, !be_length. reflexivity.
Qed.

(** ** The properties *)
Lemma C35_lem (buf : list N) (ds : list (list N)) : length buf = 128%nat ->
  Forall byte_string ds -> size (concat ds) < 2 ^ 61 ->
  (let* c := foldM sha_Write (CSHA512_512 buf) ds in sha_Finalize c) = Ok (SHA512 (concat ds)) /\
  (let* c := foldM sha_Write (CSHA512_256 buf) ds in sha_Finalize256 c) = Ok (SHA512_256 (concat ds)).
Proof.
  intros Hbuf Hds Hs.
  assert (Hb : byte_string (concat ds)).
  { unfold byte_string. rewrite Forall_concat. done. }
  assert (G : forall iv, words_ok iv -> exists c c', foldM sha_Write (CSHA (regs_of iv) buf 0) ds = Ok c /\
    sha_finish c = Ok c' /\ cs_s c' = regs_of (digest iv (concat ds))).
  { intros iv Hiv. destruct (Writes_ok iv ds Hiv (CSHA (regs_of iv) buf 0) []) as (c & E & Hr);
      [done| |by apply rep_init|].
    { cbn [app]. eapply N.lt_trans; [exact Hs|done]. }
    cbn [app] in Hr. destruct (finish_ok iv c (concat ds) Hiv Hb Hs Hr) as (c' & E' & Hc'). eauto. }
  split.
  - unfold CSHA512_512. rewrite IV_512_eq.
    destruct (G _ IV_512_ok) as (c & c' & E & E' & Hc). rewrite E. cbn [bind].
    unfold sha_Finalize. rewrite E'. cbn [bind]. rewrite Hc. rewrite !be_bytes_be. reflexivity.
  - unfold CSHA512_256. rewrite IV_512_256_eq.
    destruct (G _ IV_512_256_ok) as (c & c' & E & E' & Hc). rewrite E. cbn [bind].
    unfold sha_Finalize256. rewrite E'. cbn [bind]. rewrite Hc. unfold SHA512_256.
    rewrite words_bytes_take, !be_bytes_be. reflexivity.
Qed.

Lemma C34_lem (buf left right : list N) : length buf = 128%nat ->
  byte_string left -> byte_string right -> length left = 32%nat -> length right = 32%nat ->
  ParentHash_bytes buf left right = Ok (SHA512_256 (left ++ right)).
Proof.
  intros Hbuf Hl Hr Hll Hlr.
  destruct (C35_lem buf [left; right]) as [_ E]; [done|by repeat constructor| |].
  { cbn [concat]. unfold size. rewrite !app_length. cbn [length]. rewrite Hll, Hlr. done. }
  cbn [foldM concat] in E. rewrite app_nil_r in E.
  unfold ParentHash_bytes. destruct (sha_Write (CSHA512_256 buf) left) as [c1| | | |]; [|done..].
  cbn [bind] in *. destruct (sha_Write c1 right); done.
Qed.
Lemma SHA512_256_length m : length (SHA512_256 m) = 32%nat /\ byte_string (SHA512_256 m).
Proof.
  unfold SHA512_256. rewrite words_bytes_take. split.
  - by rewrite !app_length, !be_length.
  - unfold byte_string. rewrite <- !be_bytes_be. rewrite !Forall_app. split_and!; apply be_bytes_byte.
Qed.
Lemma C34_hash_lem (left right : hash) :
  ParentHash left right = Ok (parent_hash left right) /\
  parent_hash left right = value (SHA512_256 (be 32 left ++ be 32 right)) /\
  parent_hash left right < hash_bound.
Proof.
  assert (E : ParentHash left right = Ok (value (SHA512_256 (be 32 left ++ be 32 right)))).
  { unfold ParentHash, hash_bytes.
    rewrite C34_lem; [|done|apply be_bytes_byte|apply be_bytes_byte|apply be_bytes_length..].
    cbn [bind]. rewrite !be_bytes_be. by rewrite value_be_value. }
  assert (E2 : parent_hash left right = value (SHA512_256 (be 32 left ++ be 32 right))).
  { unfold parent_hash. rewrite E. reflexivity. }
  rewrite E2. split; [exact E|]. split; [reflexivity|].
  rewrite <- value_be_value.
  destruct (SHA512_256_length (be 32 left ++ be 32 right)) as [Hl Hb].
  eapply N.lt_le_trans; [apply be_value_bound; done|].
  unfold size. rewrite Hl. done.
Qed.
Lemma C34_const_lem (t : nat) (c : rcall) : round_calls !! t = Some c -> is_K t (rc_k c).
Proof. intros E. apply is_K_K. unfold K. by rewrite list_lookup_fmap, E. Qed.
Lemma C35_split_lem (buf1 buf2 : list N) (ds1 ds2 : list (list N)) :
  length buf1 = 128%nat -> length buf2 = 128%nat ->
  Forall byte_string ds1 -> Forall byte_string ds2 ->
  concat ds1 = concat ds2 -> size (concat ds1) < 2 ^ 61 ->
  (let* c := foldM sha_Write (CSHA512_256 buf1) ds1 in sha_Finalize256 c) =
  (let* c := foldM sha_Write (CSHA512_256 buf2) ds2 in sha_Finalize256 c).
Proof.
  intros Hb1 Hb2 H1 H2 E Hs.
  destruct (C35_lem buf1 ds1 Hb1 H1 Hs) as [_ E1]. rewrite E in Hs.
  destruct (C35_lem buf2 ds2 Hb2 H2 Hs) as [_ E2]. rewrite E1, E2, E. reflexivity.
Qed.
Lemma C35_meets_lem :
  let ds := [replicate 120 1; []; replicate 8 2; replicate 72 255] in
  length (replicate 128 7) = 128%nat /\ Forall byte_string ds /\ size (concat ds) < 2 ^ 61.
Proof.
  split; [reflexivity|]. split; [|vm_compute; reflexivity].
  repeat constructor; by apply Forall_replicate.
Qed.
