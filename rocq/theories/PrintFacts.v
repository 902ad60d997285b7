(** * PrintFacts: what is printed determines what was there (proofs) *)
From Coq Require Import Ascii.
From stdpp Require Import strings pretty.
From Verif Require Import Base StateModel CodecModel ForestModel PollardModel PosSpec PosFacts CodecSpec CodecFacts PrintModel PrintSpec PlaceSpec PosmapFacts.
From Coq Require Import ZifyBool ZifyNat ZifyN.
Ltac Zify.zify_post_hook ::= idtac.

Fixpoint lacks (c : Ascii.ascii) (s : string) : Prop :=
  match s with EmptyString => True | String a s' => a <> c /\ lacks c s' end.
Lemma lacks_app c s t : lacks c s -> lacks c t -> lacks c (s +:+ t).
Proof. induction s as [|a s IH]; [done|]. intros [Ha Hs] Ht. split; [done|]. by apply IH. Qed.
Lemma app_cons a (s t : string) : String a s +:+ t = String a (s +:+ t).
Proof. done. Qed.
Lemma app_empty (t : string) : "" +:+ t = t.
Proof. done. Qed.
Lemma app_assoc_s (s t u : string) : (s +:+ t) +:+ u = s +:+ (t +:+ u).
Proof. induction s as [|a s IH]; [done|]. by rewrite !app_cons, IH. Qed.
(** Up to the first [c] two equal texts agree. *)
Lemma split_at c s1 s2 t1 t2 : lacks c s1 -> lacks c s2 -> s1 +:+ String c t1 = s2 +:+ String c t2 -> s1 = s2 /\ t1 = t2.
Proof.
  revert s2. induction s1 as [|a s1 IH]; intros [|b s2] H1 H2 E; rewrite ?app_cons, ?app_empty in E.
  - by injection E as ->.
  - injection E as -> E. by destruct H2.
  - injection E as -> E. by destruct H1.
  - injection E as -> E. destruct H1 as [_ H1], H2 as [_ H2]. destruct (IH s2 H1 H2 E) as [-> ->]. done.
Qed.

(** Decimal numbers consist of digits. *)
Definition is_dec (c : Ascii.ascii) : Prop := exists x, x < 10 /\ c = pretty_N_char x.
Lemma pretty_go_lacks c x s : ~ is_dec c -> lacks c s -> lacks c (pretty_N_go x s).
Proof.
  intros Hc. revert s. induction (N.lt_wf_0 x) as [x _ IH]; intros s Hs.
  destruct (decide (x = 0)) as [->|Hx]; [by rewrite pretty_N_go_0|]. rewrite pretty_N_go_step by lia. apply IH; [apply N.div_lt; lia|].
  split; [|done]. intros <-. apply Hc. exists (x mod 10). split; [|done]. apply N.mod_lt. done.
Qed.
Lemma pretty_lacks c (x : N) : ~ is_dec c -> lacks c (pretty x).
Proof.
  intros Hc. unfold pretty, pretty_N. case_decide; [|by apply pretty_go_lacks].
  split; [|done]. intros <-. apply Hc. by exists 0.
Qed.
Lemma not_dec c : (forall x, x < 10 -> pretty_N_char x <> c) -> ~ is_dec c.
Proof. intros Hc (x & Hx & ->). by apply (Hc x). Qed.
Lemma lt10 x : x < 10 -> x = 0 \/ x = 1 \/ x = 2 \/ x = 3 \/ x = 4 \/ x = 5 \/ x = 6 \/ x = 7 \/ x = 8 \/ x = 9.
Proof. lia. Qed.
Ltac nodec := apply pretty_lacks, not_dec; let z := fresh "z" in let Hz := fresh "Hz" in let Ez := fresh "Ez" in intros z Hz Ez; apply lt10 in Hz; destruct_or! Hz; subst z; discriminate Ez.

(** Hexadecimal. *)
Lemma hex1 x : x < 16 -> exists c, vec_get hexmap x = Ok (String c "") /\ hex_digit c = Some x /\ (forall d, hex_digit d = None -> c <> d).
Proof.
  intros Hx. assert (Hs : x = 0 \/ x = 1 \/ x = 2 \/ x = 3 \/ x = 4 \/ x = 5 \/ x = 6 \/ x = 7 \/ x = 8 \/ x = 9 \/ x = 10 \/ x = 11 \/ x = 12 \/ x = 13 \/ x = 14 \/ x = 15) by lia.
  clear Hx. destruct_or! Hs; subst x; (eexists; split; [vm_compute; reflexivity|]; split; [reflexivity|]; intros d Hd <-; discriminate Hd).
Qed.
Lemma HexStr_ok bs : Forall (λ b, b < 256) bs -> exists s, HexStr bs = Ok s /\ unhex s = Some bs /\ (forall d, hex_digit d = None -> lacks d s).
Proof.
  induction 1 as [|b bs Hb Hbs (s & E & Eu & Hl)]; [by exists ""%string|].
  assert (H1 : N.shiftr b 4 < 16). { rewrite N.shiftr_div_pow2. change (2 ^ 4) with 16. apply N.div_lt_upper_bound; lia. }
  assert (H2 : N.land b 15 = b mod 16) by (change 15 with (N.ones 4); by rewrite N.land_ones).
  assert (H3 : b mod 16 < 16) by (by apply N.mod_lt).
  destruct (hex1 _ H1) as (c & Ec & Dc & Lc). rewrite <- H2 in H3. destruct (hex1 _ H3) as (d & Ed & Dd & Ld).
  cbn [HexStr]. rewrite Ec. cbn [bind]. rewrite Ed. cbn [bind]. rewrite E. cbn [bind]. eexists. split; [done|]. rewrite ?app_cons, ?app_empty. split.
  - cbn [unhex]. rewrite Dc, Dd, Eu. do 2 f_equal. rewrite H2, N.shiftr_div_pow2. change (2 ^ 4) with 16. pose proof (N.div_mod b 16 ltac:(done)). lia.
  - intros e He. split; [by apply Lc|]. split; [by apply Ld|]. by apply Hl.
Qed.
Lemma HexStr_inj a b s : Forall (λ b, b < 256) a -> Forall (λ b, b < 256) b -> HexStr a = Ok s -> HexStr b = Ok s -> a = b.
Proof.
  intros Ha Hb Ea Eb. destruct (HexStr_ok a Ha) as (s1 & E1 & U1 & _), (HexStr_ok b Hb) as (s2 & E2 & U2 & _).
  rewrite Ea in E1. rewrite Eb in E2. apply Ok_inv in E1 as <-. apply Ok_inv in E2 as <-. rewrite U1 in U2. by injection U2.
Qed.

Lemma hash_bytes_byte h : Forall (λ b, b < 256) (hash_bytes h).
Proof. apply be_bytes_byte. Qed.
Lemma hash_bytes_inj a b : a < 256 ^ 32 -> b < 256 ^ 32 -> hash_bytes a = hash_bytes b -> a = b.
Proof. intros Ha Hb E. apply (f_equal be_value) in E. unfold hash_bytes in E. rewrite !be_value_bytes in E. change (N.of_nat 32) with 32 in E. by rewrite !N.mod_small in E. Qed.
Lemma hash_text h : exists s, HexStr (hash_bytes h) = Ok s /\ (forall d, hex_digit d = None -> lacks d s).
Proof. destruct (HexStr_ok _ (hash_bytes_byte h)) as (s & E & _ & Hl). by exists s. Qed.

Lemma print_hashes_ok hs : exists s, print_hashes hs = Ok s.
Proof.
  induction hs as [|h hs [s E]]; [by eexists|]. destruct (hash_text h) as (t & Et & _). cbn [print_hashes]. rewrite Et. cbn [bind]. rewrite E. cbn [bind]. by eexists.
Qed.
Lemma print_hashes_inj hs1 hs2 s : fits 32 hs1 -> fits 32 hs2 -> print_hashes hs1 = Ok s -> print_hashes hs2 = Ok s -> hs1 = hs2.
Proof.
  intros H1 H2. revert hs2 s H2. induction H1 as [|h1 hs1 Hh1 Hs1 IH]; intros [|h2 hs2] s H2 E1 E2; [done| | |].
  - exfalso. cbn [print_hashes] in E1, E2. destruct (hash_text h2) as (t & Et & Hl). rewrite Et in E2. cbn [bind] in E2. destruct (print_hashes_ok hs2) as [u Eu]. rewrite Eu in E2. cbn [bind] in E2.
    rewrite <- E1 in E2. apply Ok_inv in E2. specialize (Hl (Ascii.ascii_of_nat 10) ltac:(done)). destruct t as [|c t]; [discriminate E2|]. injection E2 as -> _. by destruct Hl.
  - exfalso. cbn [print_hashes] in E1, E2. destruct (hash_text h1) as (t & Et & Hl). rewrite Et in E1. cbn [bind] in E1. destruct (print_hashes_ok hs1) as [u Eu]. rewrite Eu in E1. cbn [bind] in E1.
    rewrite <- E2 in E1. apply Ok_inv in E1. specialize (Hl (Ascii.ascii_of_nat 10) ltac:(done)). destruct t as [|c t]; [discriminate E1|]. injection E1 as -> _. by destruct Hl.
  - apply Forall_cons in H2 as [Hh2 Hs2]. cbn [print_hashes] in E1, E2. destruct (hash_text h1) as (t1 & Et1 & Hl1), (hash_text h2) as (t2 & Et2 & Hl2). rewrite Et1 in E1. rewrite Et2 in E2. cbn [bind] in E1, E2.
    destruct (print_hashes_ok hs1) as [u1 Eu1], (print_hashes_ok hs2) as [u2 Eu2]. rewrite Eu1 in E1. rewrite Eu2 in E2. cbn [bind] in E1, E2. rewrite <- E1 in E2. apply Ok_inv in E2.
    destruct (split_at ","%char t2 t1 (String " " u2) (String " " u1)) as [E3 E4]; [by apply Hl2|by apply Hl1|exact E2|]. injection E4 as ->. subst t2.
    f_equal; [|by eapply IH]. apply hash_bytes_inj; [done|done|]. eapply HexStr_inj; [apply hash_bytes_byte|apply hash_bytes_byte|exact Et1|exact Et2].
Qed.
Lemma print_vector_inj v1 v2 t1 t2 : print_vector v1 +:+ t1 = print_vector v2 +:+ t2 -> v1 = v2 /\ t1 = t2.
Proof.
  revert v2. induction v1 as [|x v1 IH]; intros [|y v2] E; cbn [print_vector] in E.
  - by injection E as ->.
  - exfalso. assert (Hl : lacks (Ascii.ascii_of_nat 10) (pretty y)) by nodec. destruct (pretty y) as [|c s]; [discriminate E|]. injection E as <- _. by destruct Hl.
  - exfalso. assert (Hl : lacks (Ascii.ascii_of_nat 10) (pretty x)) by nodec. destruct (pretty x) as [|c s]; [discriminate E|]. injection E as -> _. by destruct Hl.
  - rewrite !app_assoc_s in E. rewrite ?app_cons, ?app_empty in E. apply split_at in E as [E1 E2]; [|nodec|nodec]. apply (inj pretty) in E1 as ->. apply IH in E2 as [-> ->]. done.
Qed.

Lemma bp_Print_lem p q : fits 32 (m_proof p) -> fits 32 (m_proof q) ->
  exists s t, bp_Print p = Ok s /\ bp_Print q = Ok t /\ (s = t <-> m_targets p = m_targets q /\ m_proof p = m_proof q).
Proof.
  intros Hp Hq. destruct (print_hashes_ok (m_proof p)) as [s Es], (print_hashes_ok (m_proof q)) as [t Et]. unfold bp_Print. rewrite Es, Et. cbn [bind].
  do 2 eexists. split; [done|]. split; [done|]. split.
  - intros E. apply (inj (String.append "targets: ")) in E. apply print_vector_inj in E as [-> E]. split; [done|]. apply (inj (String.append "proof: ")) in E as ->. by eapply print_hashes_inj.
  - intros [-> E]. rewrite E in Es. rewrite Es in Et. by apply Ok_inv in Et as ->.
Qed.
Lemma ub_Print_lem p q : fits 32 (m_deleted_hashes p) -> fits 32 (m_deleted_hashes q) ->
  exists s t, ub_Print p = Ok s /\ ub_Print q = Ok t /\ (s = t <-> p = q).
Proof.
  intros Hp Hq. destruct p as [np dp hp], q as [nq dq hq]. cbn [m_deleted_hashes] in *. destruct (print_hashes_ok hp) as [s Es], (print_hashes_ok hq) as [t Et].
  unfold ub_Print. cbn [m_num_additions m_deleted_positions m_deleted_hashes]. rewrite Es, Et. cbn [bind]. do 2 eexists. split; [done|]. split; [done|]. split.
  - intros E. apply (inj (String.append "prev num adds: ")) in E. apply split_at in E as [E1 E]; [|nodec|nodec]. apply (inj pretty) in E1 as ->.
    apply (inj (String.append "deleted positions: ")) in E. apply print_vector_inj in E as [-> E]. apply (inj (String.append "deleted hashes: ")) in E as ->. f_equal. by eapply print_hashes_inj.
  - intros [= -> -> ->]. rewrite Es in Et. by apply Ok_inv in Et as ->.
Qed.

Lemma print_entries_ok es : exists s, print_entries es = Ok s.
Proof.
  induction es as [|[h x] es [s E]]; [by eexists|]. destruct (hash_text h) as (t & Et & _). cbn [print_entries]. rewrite Et. cbn [bind]. rewrite E. cbn [bind]. by eexists.
Qed.
Lemma print_entries_inj es1 es2 s : fits 32 es1.*1 -> fits 32 es2.*1 -> print_entries es1 = Ok s -> print_entries es2 = Ok s -> es1 = es2.
Proof.
  revert es2 s. induction es1 as [|[h1 x1] es1 IH]; intros [|[h2 x2] es2] s H1 H2 E1 E2; [done| | |].
  - exfalso. cbn [print_entries] in E1, E2. destruct (hash_text h2) as (t & Et & Hl). rewrite Et in E2. cbn [bind] in E2. destruct (print_entries_ok es2) as [u Eu]. rewrite Eu in E2. cbn [bind] in E2.
    rewrite <- E1 in E2. apply Ok_inv in E2. destruct t; discriminate E2.
  - exfalso. cbn [print_entries] in E1, E2. destruct (hash_text h1) as (t & Et & Hl). rewrite Et in E1. cbn [bind] in E1. destruct (print_entries_ok es1) as [u Eu]. rewrite Eu in E1. cbn [bind] in E1.
    rewrite <- E2 in E1. apply Ok_inv in E1. destruct t; discriminate E1.
  - cbn [fmap list_fmap fst] in H1, H2. apply Forall_cons in H1 as [Hh1 H1]. apply Forall_cons in H2 as [Hh2 H2].
    cbn [print_entries] in E1, E2. destruct (hash_text h1) as (t1 & Et1 & Hl1), (hash_text h2) as (t2 & Et2 & Hl2). rewrite Et1 in E1. rewrite Et2 in E2. cbn [bind] in E1, E2.
    destruct (print_entries_ok es1) as [u1 Eu1], (print_entries_ok es2) as [u2 Eu2]. rewrite Eu1 in E1. rewrite Eu2 in E2. cbn [bind] in E1, E2. rewrite <- E1 in E2. apply Ok_inv in E2.
    rewrite ?app_cons, ?app_empty in E2. apply split_at in E2 as [E3 E4]; [|by apply Hl2|by apply Hl1]. injection E4 as E4. apply split_at in E4 as [E5 E6]; [|nodec|nodec]. apply (inj pretty) in E5 as ->. subst t2 u2.
    f_equal; [|by eapply IH]. f_equal. apply hash_bytes_inj; [done|done|]. eapply HexStr_inj; [apply hash_bytes_byte|apply hash_bytes_byte|exact Et1|exact Et2].
Qed.
Lemma PrintPositionMap_lem (m1 m2 : gmap N N) es1 es2 : es1 ≡ₚ map_to_list m1 -> es2 ≡ₚ map_to_list m2 -> fits 32 es1.*1 -> fits 32 es2.*1 ->
  exists s t, PrintPositionMap es1 = Ok s /\ PrintPositionMap es2 = Ok t /\ (s = t -> m1 = m2).
Proof.
  intros P1 P2 H1 H2. destruct (print_entries_ok es1) as [s Es], (print_entries_ok es2) as [t Et]. unfold PrintPositionMap. rewrite Es, Et. cbn [bind].
  do 2 eexists. split; [done|]. split; [done|]. intros E. apply (inj (String.append "pos map:")), (inj (String.append newline)) in E as ->.
  assert (es1 = es2) as -> by (by eapply print_entries_inj). apply map_to_list_inj. by rewrite <- P1, <- P2.
Qed.
Lemma print_roots_ok rs : exists s, print_roots rs = Ok s.
Proof.
  induction rs as [|[x h] rs [s E]]; [by eexists|]. destruct (hash_text h) as (t & Et & _). cbn [print_roots]. rewrite Et. cbn [bind]. rewrite E. cbn [bind]. by eexists.
Qed.
Lemma print_roots_inj rs1 rs2 s : fits 32 rs1.*2 -> fits 32 rs2.*2 -> print_roots rs1 = Ok s -> print_roots rs2 = Ok s -> rs1 = rs2.
Proof.
  revert rs2 s. induction rs1 as [|[x1 h1] rs1 IH]; intros [|[x2 h2] rs2] s H1 H2 E1 E2; [done| | |].
  - exfalso. cbn [print_roots] in E1, E2. destruct (hash_text h2) as (t & Et & Hl). rewrite Et in E2. cbn [bind] in E2. destruct (print_roots_ok rs2) as [u Eu]. rewrite Eu in E2. cbn [bind] in E2.
    rewrite <- E1 in E2. apply Ok_inv in E2. discriminate E2.
  - exfalso. cbn [print_roots] in E1, E2. destruct (hash_text h1) as (t & Et & Hl). rewrite Et in E1. cbn [bind] in E1. destruct (print_roots_ok rs1) as [u Eu]. rewrite Eu in E1. cbn [bind] in E1.
    rewrite <- E2 in E1. apply Ok_inv in E1. discriminate E1.
  - cbn [fmap list_fmap snd] in H1, H2. apply Forall_cons in H1 as [Hh1 H1]. apply Forall_cons in H2 as [Hh2 H2].
    cbn [print_roots] in E1, E2. destruct (hash_text h1) as (t1 & Et1 & Hl1), (hash_text h2) as (t2 & Et2 & Hl2). rewrite Et1 in E1. rewrite Et2 in E2. cbn [bind] in E1, E2.
    destruct (print_roots_ok rs1) as [u1 Eu1], (print_roots_ok rs2) as [u2 Eu2]. rewrite Eu1 in E1. rewrite Eu2 in E2. cbn [bind] in E1, E2. rewrite <- E1 in E2. apply Ok_inv in E2.
    apply (inj (String.append "root: ")) in E2. apply split_at in E2 as [E3 E4]; [|nodec|nodec]. apply (inj pretty) in E3 as ->. apply split_at in E4 as [E5 ->]; [|by apply Hl2|by apply Hl1]. subst t2.
    f_equal; [|by eapply IH]. f_equal. apply hash_bytes_inj; [done|done|]. eapply HexStr_inj; [apply hash_bytes_byte|apply hash_bytes_byte|exact Et1|exact Et2].
Qed.

Lemma print_vector_lem v1 v2 : print_vector v1 = print_vector v2 <-> v1 = v2.
Proof.
  split; [|by intros ->]. intros E. apply (print_vector_inj v1 v2 "" ""). by rewrite E.
Qed.
Lemma print_swaps_lem v1 v2 : print_swaps v1 = print_swaps v2 <-> v1 = v2.
Proof.
  split; [|by intros ->]. revert v2. induction v1 as [|[a b c r k] v1 IH]; intros [|[a' b' c' r' k'] v2] E; cbn [print_swaps m_is_range_swap m_collapse m_from m_to m_range] in E.
  - done.
  - exfalso. destruct r'; rewrite ?app_cons in E; discriminate E.
  - exfalso. destruct r; rewrite ?app_cons in E; discriminate E.
  - assert (Hr : r = r') by (destruct r, r'; rewrite ?app_cons in E; [done|discriminate E|discriminate E|done]). subst r'.
    apply (inj (String.append (if r then "r" else "_"))) in E.
    assert (Hc : c = c') by (destruct c, c'; rewrite ?app_cons in E; [done|discriminate E|discriminate E|done]). subst c'.
    apply (inj (String.append (if c then "c" else "_"))), (inj (String.append " (")) in E. apply split_at in E as [E1 E]; [|nodec|nodec]. apply (inj pretty) in E1 as ->.
    apply (inj (String.append " ")) in E. apply split_at in E as [E1 E]; [|nodec|nodec]. apply (inj pretty) in E1 as ->.
    apply (inj (String.append " ")) in E. apply split_at in E as [E1 E]; [|nodec|nodec]. apply (inj pretty) in E1 as ->.
    f_equal. by apply IH.
Qed.

(** The roots. *)
Lemma pair_inj {A B C} (f : A -> B) (g : A -> C) (l l' : list A) : (λ x, (f x, g x)) <$> l = (λ x, (f x, g x)) <$> l' <-> f <$> l = f <$> l' /\ g <$> l = g <$> l'.
Proof.
  revert l'. induction l as [|x l IH]; intros [|y l']; [done|split; [done|by intros [? _]]|split; [done|by intros [? _]]|]. rewrite !fmap_cons. split.
  - intros E. injection E as E1 E2 E3. apply IH in E3 as [-> ->]. by rewrite E1, E2.
  - intros [E1 E2]. injection E1 as E1 E3. injection E2 as E2 E4. rewrite E1, E2. f_equal. by apply IH.
Qed.
Lemma F_PrintRoots_lem f g : fits 32 (F_Roots f) -> fits 32 (F_Roots g) ->
  exists s t, F_PrintRoots f = Ok s /\ F_PrintRoots g = Ok t /\ (s = t <-> F_root_positions f = F_root_positions g /\ F_Roots f = F_Roots g).
Proof.
  intros Hf Hg. unfold F_PrintRoots. destruct (print_roots_ok ((λ r, (rn_pos r, rn_hash r)) <$> f_roots f)) as [s Es], (print_roots_ok ((λ r, (rn_pos r, rn_hash r)) <$> f_roots g)) as [t Et].
  exists s, t. split; [done|]. split; [done|]. unfold F_root_positions, F_Roots in *. rewrite <- pair_inj. split.
  - intros <-. by eapply print_roots_inj; [| |exact Es|exact Et]; rewrite <- list_fmap_compose.
  - intros E. rewrite E in Es. rewrite Es in Et. by apply Ok_inv in Et.
Qed.
Lemma P_pairs h rs : forall hs, mapM_ (fun r => P_GetHash h (pr_node r)) rs = Ok hs ->
  mapM_ (fun r => let* x := P_GetHash h (pr_node r) in Ok (pr_pos r, x)) rs = Ok (zip (pr_pos <$> rs) hs) /\ length hs = length rs.
Proof.
  induction rs as [|r rs IH]; intros hs E; cbn [mapM_] in *; [by apply Ok_inv in E as <-|].
  apply bind_ok in E as (x & Ex & E). apply bind_ok in E as (xs & Exs & E). apply Ok_inv in E as <-. apply IH in Exs as [Exs Hl]. rewrite Ex. cbn [bind]. rewrite Exs. cbn [bind].
  split; [done|]. cbn [length]. by rewrite Hl.
Qed.
Lemma P_PrintRoots_lem f p hs : fits 32 (F_Roots f) -> P_Roots p = Ok hs -> fits 32 hs ->
  exists s t, F_PrintRoots f = Ok s /\ P_PrintRoots p = Ok t /\ (s = t <-> F_root_positions f = P_root_positions p /\ F_Roots f = hs).
Proof.
  intros Hf Ep Hp. unfold P_Roots in Ep. apply P_pairs in Ep as [Ep Hl]. unfold F_PrintRoots, P_PrintRoots. rewrite Ep. cbn [bind].
  destruct (print_roots_ok ((λ r, (rn_pos r, rn_hash r)) <$> f_roots f)) as [s Es], (print_roots_ok (zip (pr_pos <$> p_roots p) hs)) as [t Et].
  exists s, t. split; [done|]. split; [done|].
  assert (Ef : (λ r, (rn_pos r, rn_hash r)) <$> f_roots f = zip (F_root_positions f) (F_Roots f)).
  { unfold F_root_positions, F_Roots. clear. induction (f_roots f) as [|r rs IH]; [done|]. rewrite !fmap_cons. cbn [zip]. unfold zip in *. cbn [zip_with]. by rewrite IH. }
  fold (P_root_positions p) in *. rewrite Ef in Es. assert (L1 : length (F_root_positions f) = length (F_Roots f)) by (unfold F_root_positions, F_Roots; by rewrite !fmap_length).
  assert (L2 : length (P_root_positions p) = length hs) by (unfold P_root_positions; by rewrite fmap_length, Hl). split.
  - intros <-. assert (E : zip (F_root_positions f) (F_Roots f) = zip (P_root_positions p) hs). { eapply print_roots_inj; [| |exact Es|exact Et]; by rewrite snd_zip by lia. }
    split; [apply (f_equal (fmap fst)) in E; by rewrite !fst_zip in E by lia|apply (f_equal (fmap snd)) in E; by rewrite !snd_zip in E by lia].
  - intros [E1 E2]. rewrite E1, E2, Et in Es. by apply Ok_inv in Es.
Qed.

(** Examples. *)
Lemma HexStr_reads bs : Forall (λ b, b < 256) bs -> exists s, HexStr bs = Ok s /\ unhex s = Some bs.
Proof. intros Hb. destruct (HexStr_ok bs Hb) as (s & E & U & _). by exists s. Qed.
Lemma hex_example : HexStr [0; 171; 15; 240] = Ok "00ab0ff0"%string /\ Forall (λ b, b < 256) [0; 171; 15; 240].
Proof. split; [vm_compute; reflexivity|]. repeat constructor. Qed.
Lemma fits_17 : fits 32 [17].
Proof. repeat constructor. Qed.
Lemma proof_example : fits 32 [17] /\
  bp_Print (BatchProof [4; 19] [17]) = Ok ("targets: 4 19 " +:+ newline +:+ "proof: 0000000000000000000000000000000000000000000000000000000000000011, " +:+ newline)%string.
Proof. split; [exact fits_17|]. vm_compute. reflexivity. Qed.
Lemma undo_example : fits 32 [17] /\
  ub_Print (UndoBatch 3 [4] [17]) = Ok ("prev num adds: 3" +:+ newline +:+ "deleted positions: 4 " +:+ newline +:+ "deleted hashes: 0000000000000000000000000000000000000000000000000000000000000011, " +:+ newline)%string.
Proof. split; [exact fits_17|]. vm_compute. reflexivity. Qed.
Lemma map_example : [(17, 4); (255, 0)] ≡ₚ map_to_list ({[17 := 4; 255 := 0]} : gmap N N) /\ fits 32 ([(17, 4); (255, 0)] : list (N * N)).*1.
Proof. split; [|repeat constructor]. apply (bool_decide_unpack _). vm_compute. exact I. Qed.
Lemma roots_example : exists p, Pollard_restore [17; 255] 3 = Ok p /\ P_Roots p = Ok [17; 255] /\ fits 32 [17; 255] /\
  P_PrintRoots p = Ok ("root: 4:0000000000000000000000000000000000000000000000000000000000000011" +:+ newline +:+
                       "root: 2:00000000000000000000000000000000000000000000000000000000000000ff" +:+ newline)%string.
Proof. eexists. split; [vm_compute; reflexivity|]. split; [vm_compute; reflexivity|]. split; [repeat constructor|]. vm_compute. reflexivity. Qed.
Lemma swaps_example : print_swaps [Swap 4 6 true false 0; Swap 0 8 false true 2] = ("_c (4, 6) 0 r_ (0, 8) 2 " +:+ newline)%string.
Proof. vm_compute. reflexivity. Qed.
