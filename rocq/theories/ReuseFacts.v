(** * ReuseFacts: proofs about a hasher used again *)
From Verif Require Import Base CodecModel CodecSpec CodecFacts Sha512Model Sha512Spec Sha512Facts ReuseSpec ReuseModel.

Lemma finish_rep iv c m : words_ok iv -> byte_string m -> size m < 2 ^ 61 -> rep iv c m ->
  exists c', sha_finish c = Ok c' /\ cs_s c' = regs_of (digest iv m) /\ rep iv c' (padded m).
Proof.
  intros Hiv Hb Hs Hr. unfold sha_finish. rewrite (rep_bytes _ _ _ Hr).
  rewrite sizedesc_eq by (change (2 ^ 64) with (8 * 2 ^ 61); lia). rewrite zeros_eq.
  set (pad := 128 :: replicate (N.to_nat (zeros_needed (size m))) 0).
  assert (Hpad : (length pad <= 128)%nat).
  { unfold pad. cbn [length]. rewrite replicate_length. unfold zeros_needed.
    pose proof (N.mod_lt (128 - (size m + 17) mod 128) 128). lia. }
  assert (Hbp : byte_string (m ++ pad)).
  { apply Forall_app. split; [done|]. unfold pad. constructor; [done|].
    apply Forall_replicate. done. }
  assert (Hsp : size (m ++ pad) < 2 ^ 61 + 128).
  { unfold size in *. rewrite app_length. lia. }
  destruct (Write_ok iv c m pad Hiv Hbp) as (c1 & E1 & Hr1); [|done|].
  { eapply N.lt_trans; [exact Hsp|]. done. }
  rewrite E1. cbn [bind].
  destruct (Write_ok iv c1 (m ++ pad) (be 16 (8 * size m)) Hiv) as (c2 & E2 & Hr2); [| |done|].
  { apply Forall_app. split; [done|]. rewrite <- be_bytes_be. apply be_bytes_byte. }
  { apply N.lt_trans with (2 ^ 61 + 144); [|done].
    unfold size in *. rewrite (app_length (m ++ pad)), be_length. lia. }
  assert (Ep : (m ++ pad) ++ be 16 (8 * size m) = padded m).
  { unfold padded, pad. rewrite <- !app_assoc. reflexivity. }
  rewrite Ep in Hr2. exists c2. split; [done|]. split; [|done]. exact (rep_s _ _ _ Hr2).
Qed.
Lemma padded_bytes m : byte_string m -> byte_string (padded m).
Proof.
  intros Hb. unfold padded. unfold byte_string. rewrite !Forall_app. split_and!.
  - exact Hb.
  - by repeat constructor.
  - by apply Forall_replicate.
  - rewrite <- be_bytes_be. apply be_bytes_byte.
Qed.

Lemma step_rep iv m c o : words_ok iv -> byte_string m -> size m < 2 ^ 61 -> rep iv c m -> hop_bytes o ->
  size (ideal_step (iv, m) o).1.2 < 2 ^ 61 ->
  exists c', hasher_step c o = Ok (c', (ideal_step (iv, m) o).2) /\
    rep (ideal_step (iv, m) o).1.1 c' (ideal_step (iv, m) o).1.2 /\
    words_ok (ideal_step (iv, m) o).1.1 /\ byte_string (ideal_step (iv, m) o).1.2.
Proof.
  intros Hiv Hb Hs Hr Ho Hs'. destruct o as [d| | |]; cbn [ideal_step fst snd hop_bytes] in *; unfold hasher_step.
  - assert (Hbd : byte_string (m ++ d)) by (apply Forall_app; split; [exact Hb|exact Ho]).
    destruct (Write_ok iv c m d Hiv Hbd) as (c' & E & Hr'); [|exact Hr|].
    { eapply N.lt_trans; [exact Hs'|done]. }
    rewrite E. cbn [bind]. eauto.
  - destruct (finish_rep iv c m Hiv Hb Hs Hr) as (c' & E & Hc & Hr'). unfold sha_Finalize. rewrite E. cbn [bind].
    exists c'. split; [|split; [done|split; [done|by apply padded_bytes]]].
    rewrite Hc, !be_bytes_be. reflexivity.
  - destruct (finish_rep iv c m Hiv Hb Hs Hr) as (c' & E & Hc & Hr'). unfold sha_Finalize256. rewrite E. cbn [bind].
    exists c'. split; [|split; [done|split; [done|by apply padded_bytes]]].
    rewrite Hc, words_bytes_take, !be_bytes_be. reflexivity.
  - exists (sha_Reset c). split; [done|]. unfold sha_Reset. rewrite IV_512_eq.
    split; [apply rep_init; apply (rep_buf _ _ _ Hr)|]. split; [exact IV_512_ok|constructor].
Qed.
Lemma run_rep os : forall iv m c, words_ok iv -> byte_string m -> rep iv c m -> Forall hop_bytes os ->
  short (iv, m) os ->
  exists c', hasher_run c os = Ok (c', ideal (iv, m) os) /\
    rep (ideal_end (iv, m) os).1 c' (ideal_end (iv, m) os).2.
Proof.
  induction os as [|o r IH]; intros iv m c Hiv Hb Hr Ho Hs; cbn [hasher_run ideal ideal_end short snd] in *.
  - eauto.
  - apply Forall_cons in Ho as [Ho Ho']. destruct Hs as [Hs Hs'].
    assert (Hn : size (ideal_step (iv, m) o).1.2 < 2 ^ 61) by (destruct r; apply Hs').
    destruct (step_rep iv m c o Hiv Hb Hs Hr Ho Hn) as (c1 & E1 & Hr1 & Hiv1 & Hb1).
    rewrite E1. cbn [bind fst snd].
    destruct (ideal_step (iv, m) o) as [[iv1 m1] out1]. cbn [fst snd] in *.
    destruct (IH iv1 m1 c1 Hiv1 Hb1 Hr1 Ho' Hs') as (c2 & E2 & Hr2). rewrite E2. cbn [bind fst snd]. eauto.
Qed.

Lemma C78_life_lem (buf : list N) os : length buf = 128%nat -> Forall hop_bytes os ->
  (short (IV_512, []) os -> exists c, hasher_run (CSHA512_512 buf) os = Ok (c, ideal (IV_512, []) os)) /\
  (short (IV_512_256, []) os -> exists c, hasher_run (CSHA512_256 buf) os = Ok (c, ideal (IV_512_256, []) os)).
Proof.
  intros Hbuf Ho. split; intros Hs.
  - unfold CSHA512_512. rewrite IV_512_eq.
    destruct (run_rep os IV_512 [] _ IV_512_ok ltac:(constructor) (rep_init IV_512 buf Hbuf) Ho Hs) as (c & E & _). eauto.
  - unfold CSHA512_256. rewrite IV_512_256_eq.
    destruct (run_rep os IV_512_256 [] _ IV_512_256_ok ltac:(constructor) (rep_init IV_512_256 buf Hbuf) Ho Hs) as (c & E & _). eauto.
Qed.

Lemma hasher_run_app a b : forall c c1 o1, hasher_run c a = Ok (c1, o1) ->
  hasher_run c (a ++ b) = let* y := hasher_run c1 b in Ok (y.1, o1 ++ y.2).
Proof.
  induction a as [|o a IH]; intros c c1 o1 E; cbn [hasher_run app] in *.
  - injection E as <- <-. destruct (hasher_run c b) as [[? ?]| | | |]; reflexivity.
  - destruct (hasher_step c o) as [[c0 x]| | | |]; cbn [bind fst snd] in *; try discriminate.
    destruct (hasher_run c0 a) as [[c2 y]| | | |] eqn:E2; cbn [bind fst snd] in *; try discriminate.
    injection E as <- <-. rewrite (IH c0 c2 y E2). cbn [bind].
    destruct (hasher_run c2 b) as [[? z]| | | |]; cbn [bind fst snd]; try reflexivity.
    by rewrite app_assoc.
Qed.

(** After a reset the digests are those of SHA-512, whatever came before and
    whichever constructor was used. *)
Lemma ideal_writes iv m ds : ideal (iv, m) (HWrite <$> ds) = [] /\
  ideal_end (iv, m) (HWrite <$> ds) = (iv, m ++ concat ds).
Proof.
  revert m. induction ds as [|d ds IH]; intros m; cbn [fmap list_fmap ideal ideal_end ideal_step fst snd app concat].
  - by rewrite app_nil_r.
  - destruct (IH (m ++ d)) as [E1 E2]. rewrite <- app_assoc in E2. done.
Qed.
Lemma short_writes iv ds : forall m, size (m ++ concat ds) < 2 ^ 61 -> short (iv, m) (HWrite <$> ds).
Proof.
  induction ds as [|d ds IH]; intros m Hs; cbn [fmap list_fmap short ideal_step fst snd concat] in *.
  - rewrite app_nil_r in Hs. done.
  - rewrite app_assoc in Hs. split; [|by apply IH].
    eapply N.le_lt_trans; [|exact Hs]. unfold size. rewrite !app_length. lia.
Qed.
Lemma rep_len iv c m : rep iv c m -> length (cs_buf c) = 128%nat.
Proof. apply rep_buf. Qed.

Lemma C78_reset_lem (buf : list N) (wide : bool) os ds :
  let iv := if wide then IV_512 else IV_512_256 in
  let c0 := if wide then CSHA512_512 buf else CSHA512_256 buf in
  length buf = 128%nat -> Forall hop_bytes os -> short (iv, []) os ->
  Forall byte_string ds -> size (concat ds) < 2 ^ 61 ->
  exists c outs, hasher_run c0 os = Ok (c, outs) /\
    (let* c' := foldM sha_Write (sha_Reset c) ds in sha_Finalize c') = Ok (SHA512 (concat ds)) /\
    (let* c' := foldM sha_Write (sha_Reset c) ds in sha_Finalize256 c') = Ok (take 32 (SHA512 (concat ds))).
Proof.
  intros iv c0 Hbuf Ho Hs Hd Hl.
  assert (G : exists c outs, hasher_run c0 os = Ok (c, outs) /\ length (cs_buf c) = 128%nat).
  { subst iv c0. destruct wide.
    - unfold CSHA512_512. rewrite IV_512_eq.
      destruct (run_rep os IV_512 [] _ IV_512_ok ltac:(constructor) (rep_init IV_512 buf Hbuf) Ho Hs) as (c & E & Hr).
      exists c, (ideal (IV_512, []) os). split; [exact E|]. exact (rep_len _ _ _ Hr).
    - unfold CSHA512_256. rewrite IV_512_256_eq.
      destruct (run_rep os IV_512_256 [] _ IV_512_256_ok ltac:(constructor) (rep_init IV_512_256 buf Hbuf) Ho Hs) as (c & E & Hr).
      exists c, (ideal (IV_512_256, []) os). split; [exact E|]. exact (rep_len _ _ _ Hr). }
  destruct G as (c & outs & E & Hc). exists c, outs. split; [exact E|].
  assert (Hb : byte_string (concat ds)) by (unfold byte_string; rewrite Forall_concat; done).
  unfold sha_Reset. rewrite IV_512_eq.
  destruct (Writes_ok IV_512 ds IV_512_ok _ [] Hb ltac:(eapply N.lt_trans; [exact Hl|done]) (rep_init IV_512 (cs_buf c) Hc)) as (c1 & E1 & Hr1).
  rewrite E1. cbn [bind app] in *. unfold sha_Finalize, sha_Finalize256.
  destruct (finish_ok IV_512 c1 (concat ds) IV_512_ok Hb Hl Hr1) as (c2 & E2 & Hc2). rewrite E2. cbn [bind]. rewrite Hc2.
  unfold SHA512. rewrite words_bytes_take, !be_bytes_be. done.
Qed.

(** ** What is not so *)
Definition out_num (r : res (csha * list (list N))) : res (list N) :=
  let* x := r in Ok (value <$> x.2).
Definition buf0 : list N := replicate 128 0.
(** The digest of the empty message, before and after a reset. *)
Lemma runs_differ : exists a b c, out_num (hasher_run (CSHA512_256 buf0) [HReset; HFinalize256]) = Ok [a] /\
  out_num (hasher_run (CSHA512_256 buf0) [HFinalize256]) = Ok [b] /\
  out_num (hasher_run (CSHA512_256 buf0) [HFinalize256; HFinalize256]) = Ok [b; c] /\ a <> b /\ b <> c.
Proof. do 3 eexists. split_and!; [vm_compute; reflexivity..| |]; discriminate. Qed.
Lemma out_num_inv r l : out_num r = Ok l -> exists c o, r = Ok (c, o) /\ value <$> o = l.
Proof. unfold out_num. destruct r as [[c o]| | | |]; cbn [bind snd]; try discriminate. intros E. injection E as E. eauto. Qed.
Lemma short_lt (m : list N) k : size m = k -> (k <? 2 ^ 61) = true -> size m < 2 ^ 61.
Proof. intros -> Hk. by apply N.ltb_lt. Qed.
Lemma fresh_is b c : hasher_run (CSHA512_256 buf0) [HFinalize256] = Ok (c, [b]) -> b = SHA512_256 [].
Proof.
  destruct (C78_life_lem buf0 [HFinalize256]) as [_ G]; [reflexivity|repeat constructor|].
  destruct G as [c' E].
  { split; [apply (short_lt _ 0); reflexivity|]. split; [|exact I]. apply (short_lt _ 128); vm_compute; reflexivity. }
  cbn [ideal ideal_step fst snd app] in E. rewrite E. unfold SHA512_256.
  generalize (take 32 (words_bytes (digest IV_512_256 []))). intros x E'. congruence.
Qed.
Lemma map1 (o : list (list N)) b : value <$> o = [b] -> exists y, o = [y] /\ value y = b.
Proof. destruct o as [|y [|? ?]]; intros E; try discriminate. injection E as E. eauto. Qed.
Lemma map2 (o : list (list N)) b d : value <$> o = [b; d] -> exists y z, o = [y; z] /\ value y = b /\ value z = d.
Proof. destruct o as [|y [|z [|? ?]]]; intros E; try discriminate. injection E as E E'. eauto. Qed.
Lemma run1_2 c0 c1 c2 y x z : hasher_run c0 [HFinalize256] = Ok (c1, [y]) ->
  hasher_run c0 [HFinalize256; HFinalize256] = Ok (c2, [x; z]) -> x = y.
Proof.
  intros R1 R2. change [HFinalize256; HFinalize256] with ([HFinalize256] ++ [HFinalize256]) in R2. rewrite (hasher_run_app [HFinalize256] [HFinalize256] c0 c1 [y] R1) in R2.
  destruct (hasher_run c1 [HFinalize256]) as [[c3 o]| | | |]; cbn [bind fst snd app] in R2; try discriminate. congruence.
Qed.
Lemma C78_refuted_lem : exists buf, length buf = 128%nat /\
  (exists c b, hasher_run (CSHA512_256 buf) [HReset; HFinalize256] = Ok (c, [b]) /\ b <> SHA512_256 []) /\
  (exists c b, hasher_run (CSHA512_256 buf) [HFinalize256; HFinalize256] = Ok (c, [SHA512_256 []; b]) /\ b <> SHA512_256 []).
Proof.
  exists buf0. split; [reflexivity|]. destruct runs_differ as (a & b & d & Ea & Eb & Ed & Hab & Hbd).
  apply out_num_inv in Ea as (ca & oa & Ra & Va), Eb as (cb & ob & Rb & Vb), Ed as (cd & od & Rd & Vd).
  apply map1 in Va as (x & -> & Vx), Vb as (y & -> & Vy). apply map2 in Vd as (y' & z & -> & Vy' & Vz).
  pose proof (fresh_is y cb Rb) as Ey. pose proof (run1_2 _ _ _ _ _ _ Rb Rd) as Ey'. subst y'. rewrite <- Ey. split.
  - exists ca, x. split; [exact Ra|]. intros E. apply Hab. by rewrite <- Vx, <- Vy, E.
  - exists cd, z. split; [exact Rd|]. intros E. apply Hbd. by rewrite <- Vz, <- Vy, E.
Qed.
Lemma C78_meets_lem : let os := [HWrite (replicate 120 1); HFinalize256; HWrite [2]; HFinalize; HReset; HWrite (replicate 200 3); HFinalize256] in
  length buf0 = 128%nat /\ Forall hop_bytes os /\ short (IV_512, []) os /\ short (IV_512_256, []) os.
Proof.
  cbn zeta. split; [reflexivity|]. split.
  - repeat constructor; try done; by apply Forall_replicate.
  - assert (G : forall iv, short (iv, []) [HWrite (replicate 120 1); HFinalize256; HWrite [2]; HFinalize; HReset; HWrite (replicate 200 3); HFinalize256]).
    { intros iv. cbn [short ideal_step fst snd]. generalize IV_512. intros iv'.
      repeat (split; [eapply short_lt; [vm_compute; reflexivity|reflexivity]|]). exact I. }
    split; apply G.
Qed.
