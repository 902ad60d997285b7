(** * UnitFacts: the unit test simple_blockchain (proofs) *)
From stdpp Require Import sorting.
From Verif Require Import Base StateModel CodecModel ForestModel PollardModel FuzzModel UnitModel PosSpec PosFacts PathFacts PosmapFacts MerkleSpec CodecSpec CodecFacts TargetFacts ForestFacts SpecFacts ForestInv ForestSpec CommitFacts
  HistFacts ProofSpec ProveFacts PollardSpec PollardRep PollardAdd PollardInit PollardVerifyMain PollardHist PollardProps PollardRecall UniqueFacts TotalFacts ForestExamples PollardExamples FuzzFacts PollardRemove SpentFacts MarkSpec MarkFacts.
From Coq Require Import ZifyBool ZifyNat ZifyN.
Ltac Zify.zify_post_hook ::= idtac.

Lemma digits i : i < 4294967296 -> i = i mod 256 + 256 * (i / 256 mod 256 + 256 * (i / 65536 mod 256 + 256 * (i / 16777216 mod 256))).
Proof.
  intros Hi. change 65536 with (256 * 256). change 16777216 with (256 * 256 * 256). rewrite <- !N.div_div by done.
  assert (Hd : i / 256 / 256 / 256 < 256). { rewrite !N.div_div by done. by apply N.div_lt_upper_bound. }
  rewrite (N.mod_small (i / 256 / 256 / 256) 256) by done.
  pose proof (N.div_mod i 256 ltac:(done)). pose proof (N.div_mod (i / 256) 256 ltac:(done)). pose proof (N.div_mod (i / 256 / 256) 256 ltac:(done)). lia.
Qed.
Lemma SetHash_inj i j : i < 4294967296 -> j < 4294967296 -> SetHash i = SetHash j -> i = j.
Proof.
  intros Hi Hj. unfold SetHash. change (replicate 27 0) with (repeat 0 27). cbn [repeat app]. unfold be_value. cbn [fold_left]. intros E.
  rewrite (digits i Hi), (digits j Hj). clear Hi Hj.
  pose proof (N.mod_lt i 256 ltac:(done)). pose proof (N.mod_lt j 256 ltac:(done)).
  pose proof (N.mod_lt (i / 256) 256 ltac:(done)). pose proof (N.mod_lt (j / 256) 256 ltac:(done)).
  pose proof (N.mod_lt (i / 65536) 256 ltac:(done)). pose proof (N.mod_lt (j / 65536) 256 ltac:(done)).
  pose proof (N.mod_lt (i / 16777216) 256 ltac:(done)). pose proof (N.mod_lt (j / 16777216) 256 ltac:(done)).
  generalize dependent (i mod 256). generalize dependent (j mod 256). generalize dependent (i / 256 mod 256). generalize dependent (j / 256 mod 256).
  generalize dependent (i / 65536 mod 256). generalize dependent (j / 65536 mod 256). generalize dependent (i / 16777216 mod 256). generalize dependent (j / 16777216 mod 256).
  intros. lia.
Qed.
Lemma test_leaves_fst a k : (test_leaves a k).*1 = SetHash <$> nseq a k.
Proof. unfold test_leaves. by rewrite <- list_fmap_compose. Qed.
Lemma test_leaves_size a k : size (test_leaves a k) = k.
Proof. unfold test_leaves, size. rewrite fmap_length, nseq_length. lia. Qed.
Lemma test_leaves_flags a k : filter (λ x : leaf, x.2 = true) (test_leaves a k) = [].
Proof.
  unfold test_leaves. generalize (nseq a k). induction l as [|x l IH]; [done|]. cbn [fmap list_fmap]. rewrite filter_cons_False; [exact IH|]. cbn [snd]. discriminate.
Qed.

Section Unit.
Context (H : hash -> hash -> hash) (rnd : N -> N -> N -> N).
Context (Hrnd : forall k a b, a <= b -> a <= rnd k a b <= b).

(** ** The selection *)
Lemma select_end fuel f k min max acc : (0 <? max) && negb (min =? max) = false -> select rnd fuel f k min max acc = Ok (k, acc).
Proof. intros E. destruct fuel; cbn [select]; by rewrite E. Qed.
Lemma select_ok f ls max : holds_leaves f ls -> max < size ls -> forall fuel k min acc, min <= max -> max <= min + N.of_nat fuel ->
  exists k' ts, StronglySorted N.lt ts /\ Forall (λ t, min <= t <= max) ts /\ select rnd fuel f k min max acc = Ok (k', acc ++ (leaf_at ls <$> ts)).
Proof. clear H.
  intros [Hfn Hg] Hmax. induction fuel as [|fuel IH]; intros k min acc Hm Hf.
  - exists k, []. rewrite select_end, app_nil_r; [split; [constructor|]; split; [constructor|done]|]. destruct (N.eqb_spec min max); [|lia]. by rewrite andb_false_r.
  - destruct ((0 <? max) && negb (min =? max)) eqn:Ec.
    2: { exists k, []. rewrite select_end, app_nil_r by done. split; [constructor|]. split; [constructor|done]. }
    cbn [select]. rewrite Ec. pose proof (Hrnd k min max Hm) as Hd. remember (rnd k min max) as d eqn:Ed. clear Ed. cbv zeta. rewrite Hg by lia. cbn [bind].
    apply andb_true_iff in Ec as [_ Ec]. destruct (N.eqb_spec min max); [done|].
    destruct (N.ltb_spec max (d + 1)).
    + rewrite select_end. 2: { destruct (N.eqb_spec max max); [|lia]. by rewrite andb_false_r. }
      exists (k + 1), [d]. split; [repeat constructor|]. split; [|done]. constructor; [lia|constructor].
    + destruct (IH (k + 1) (d + 1) (acc ++ [leaf_at ls d]) ltac:(lia) ltac:(lia)) as (k' & ts & Hs & Hb & ->).
      exists k', (d :: ts). rewrite <- app_assoc. split; [|split; [|done]].
      * constructor; [done|]. eapply Forall_impl; [exact Hb|]. intros t Ht; cbn in Ht; lia.
      * constructor; [lia|]. eapply Forall_impl; [exact Hb|]. intros t Ht; cbn in Ht; lia.
Qed.

(** ** The proofs made by the pollard *)
Lemma prove_each_ok g p bp ths v : synced H g p -> verifies H g p bp ths true v -> forall hs foo, (forall h, h ∈ hs -> h ∈ ths) -> synced H g foo -> prove_each H v foo hs = Ok tt.
Proof.
  intros Hs Hv. induction hs as [|h hs IH]; intros foo Hin Hfoo; [done|]. cbn [prove_each].
  assert (Hh : h ∈ ths) by (apply Hin; by left).
  rewrite (C30_pos_lem H g p bp ths v [h] Hs Hv) by (intros x ->%elem_of_list_singleton; exact Hh).
  destruct (synced_inv H g p Hs) as (us & ls & Hr & Hhl & Hn & _). pose proof Hhl as [Hfn Hg]. destruct Hv as (Hwf & EV & Hnc).
  destruct (C27_lem H g p bp ths v ls Hs Hhl Hwf EV) as [Hc|HF]; [by destruct (Hnc ls Hhl)|].
  apply elem_of_list_lookup in Hh as [x Hx]. eapply Forall2_lookup_r in HF as (t & _ & Ht & Eg); [|exact Hx].
  assert (Hls : h ∈ ls). { rewrite Hfn in Ht. rewrite Hg in Eg by done. apply Ok_inv in Eg as <-. by apply leaf_at_elem. }
  assert (H62 : 2 ^ 31 <= 2 ^ 62) by done.
  destruct (C06_lem H g us ls [h] (NumRows (f_n g)) Hr Hhl) as [_ Hgood]; [by apply NumRows_height|].
  destruct Hgood as (q & ps & EF & HF & Hperm & Hsrt & _); [apply NoDup_singleton|intros x0 ->%elem_of_list_singleton; done|].
  rewrite EF. cbn [bind]. apply Forall2_cons_inv_l in HF as (t' & tl & [Ht' Eg'] & HF & Etl). apply Forall2_nil_inv_l in HF as ->.
  rewrite Etl in Hperm. apply Permutation_singleton_r in Hperm.
  destruct (C26_lem H g foo [h] q [h] Hfoo EF) as (foo1 & EV1 & _ & Hs1). { rewrite Hperm. by repeat constructor. }
  rewrite EV1. cbn [bind fst snd check].
  destruct (C31_lem H g foo1 Hs1) as (foo2 & -> & _ & _ & _ & _ & _ & Hs2). cbn [bind]. apply IH; [|done]. intros y Hy. apply Hin. by right.
Qed.

(** ** A pollard that remembers nothing marks nothing for deleted leaves *)
Lemma no_marks f p bp ths ls t : keeps H f p ∅ -> holds_leaves f ls -> (forall h, h ∈ ths -> h ∉ ls) -> ~ marks p bp ths t.
Proof.
  intros Hk Hh Hgone ((Hv & Hl & _) & (q & h & Hq & Eq) & x & Hx & Ha).
  destruct (keeps_rinv H f p ∅ Hk) as (us & ls' & M & Hr & Hh' & Hn & [HP HT] & (_ & _ & H3)). assert (ls' = ls) as -> by (by eapply holds_unique).
  destruct HP as (Hpn & L & HR & Hag). rewrite Hpn in *. destruct Hv as [_ Hlt]. rewrite Forall_forall in Hlt. specialize (Hlt t (elem_of_list_lookup_2 _ _ _ Hx)).
  assert (Hn62 : size ls <= 2 ^ 62) by (assert (2 ^ 31 <= 2 ^ 62) by done; lia).
  destruct Hq as [[Hrt ->]|[Hnr ->]].
  - destruct (lookup_lt_is_Some_2 ths x) as [th Hth]. { rewrite Hl. by apply lookup_lt_Some in Hx. }
    apply (Hgone th); [by eapply elem_of_list_lookup_2|]. rewrite <- (Ha x t th h (le_n x) Hx Hth Eq).
    apply (leaf_read H p ls L M Hn62 Hpn HR Hag t h Hlt) in Eq as [_ ->]. by apply leaf_at_elem.
  - assert (Hup : node (size ls) (N.of_nat 1) (t / 2)).
    { apply trees_up; [by apply leaf_node|]. change (N.of_nat 0) with 0. intros Hc. by apply Hnr, trees_elem. }
    pose proof (ProveFacts.sib_half t) as E2.
    pose proof (HT 0%nat (sib t) h) as HT0. rewrite E2 in HT0. change (N.of_nat 0) with 0 in HT0. rewrite enc_0 in HT0. destruct (HT0 Hup Eq) as (i & HM & Ei).
    assert (Hi : i < size ls).
    { unfold node in Hup. change (2 ^ N.of_nat 1) with 2 in *. zify. Z.div_mod_to_equations. lia. }
    specialize (H3 i Hi HM). set_solver.
Qed.

(** ** One block *)
Definition test_hash (u : N) (h : hash) : Prop := exists i, i < u /\ h = SetHash i.
Lemma test_hash_mono u u' ls : u <= u' -> Forall (test_hash u) ls -> Forall (test_hash u') ls.
Proof. intros Hu HF. eapply Forall_impl; [exact HF|]. intros h (i & Hi & E). exists i. split; [lia|done]. Qed.
Definition broken (u : N) : Prop := exists f p ls, synced H f p /\ holds_leaves f ls /\ Forall (test_hash u) ls /\
  ((exists r i, node (size ls) r i /\ nh H (leaf_at ls) (N.to_nat r) i = zero_hash) \/ exists bp ths p', P_Verify H p bp ths = Ok (true, p') /\ shows_collision H p' ls).
Lemma broken_mono u u' : u <= u' -> broken u -> broken u'.
Proof. intros Hu (f & p & ls & H1 & H2 & H3 & H4). exists f, p, ls. split; [done|]. split; [done|]. split; [by eapply test_hash_mono|done]. Qed.

(** The kept undo batches lead back, step by step, to leaf lists with the kept roots. *)
Fixpoint links (k : N) (ls : list hash) (undos : list (undo_batch * list hash)) : Prop :=
  match undos with
  | [] => True
  | (u, rs) :: undos' => exists ls0, entry_ok u ls0 ls /\ NumRows (size ls0) < k /\ size ls0 < 2 ^ 31 /\ rs = spec_roots H ls0 /\ links k ls0 undos'
  end.
Lemma links_mono k k' undos : k <= k' -> forall ls, links k ls undos -> links k' ls undos.
Proof.
  intros Hk. induction undos as [|[u rs] undos IH]; intros ls; [done|]. intros (ls0 & H1 & H2 & H3 & H4 & H5).
  exists ls0. split; [done|]. split; [lia|]. split; [done|]. split; [done|]. by apply IH.
Qed.
Lemma rollback_ok undos : forall f ls, inv H f ls -> size ls < 2 ^ 31 -> links (size (f_data f)) ls undos ->
  exists f' ls', rollback H f undos = Ok f' /\ inv H f' ls' /\ size ls' < 2 ^ 31.
Proof.
  induction undos as [|[u rs] undos IH]; intros f ls Hi Hn Hl; [by exists f, ls|]. destruct Hl as (ls0 & H1 & H2 & H3 & -> & H5).
  destruct (Undo_entry H f ls u ls0 Hi Hn H1 H2 H3) as (f' & E & Hi' & Ed). cbn [rollback]. rewrite E. cbn [bind fst snd check].
  rewrite (inv_roots _ _ _ Hi'), (proj2 (vec_eqb_eq _ _) eq_refl). cbn [bind check]. apply (IH f' ls0); [done|done|]. by rewrite Ed.
Qed.

Definition binv (s : chain_state) : Prop := exists g us ls, reachable H (c_full s) us /\ holds_leaves (c_full s) ls /\ holds_leaves g ls /\ keeps H g (c_pruned s) ∅ /\
  Forall (test_hash (c_unique s)) ls /\ 0 < size ls <= c_unique s /\ links (size (f_data (c_full s))) ls (c_undos s).

Lemma block_ok s : binv s -> c_unique s + 128 < 2 ^ 31 ->
  (exists s', block H rnd s = Ok s' /\ binv s' /\ c_unique s' <= c_unique s + 128 /\ exists e, c_undos s' = e :: c_undos s) \/ broken (c_unique s + 128).
Proof.
  intros (g & us & ls & Hr & Hh & Hhg & Hk & Hth & Hsz & Hlk) Hb. destruct s as [f p u k undos]. cbn [c_full c_pruned c_unique c_draw c_undos] in *.
  unfold block. cbn [c_full c_pruned c_unique c_draw c_undos]. pose proof (Hrnd k 1 128 ltac:(lia)) as Hnum. remember (rnd k 1 128) as num eqn:Enum. clear Enum. cbv zeta.
  assert (Hmax : int_max + 1 = 2 ^ 31) by done. assert (H62 : 2 ^ 31 <= 2 ^ 62) by done. assert (H32 : 2 ^ 31 <= 4294967296) by done.
  unfold int_add. destruct (N.ltb_spec int_max (u + num)); [lia|]. cbn [bind].
  pose proof Hh as [Hfn Hg]. destruct (select_ok f ls (f_n f - 1) Hh ltac:(lia) (N.to_nat (f_n f - 1)) (k + 1) 0 [] ltac:(lia) ltac:(lia)) as (k' & ts & Hss & Hts & ->).
  cbn [bind fst snd]. rewrite app_nil_l.
  assert (Hv : valid_targets (size ls) ts) by (split; [done|]; eapply Forall_impl; [exact Hts|]; intros t Ht; cbn in Ht; lia).
  destruct (reachable_holds H f us ls Hr Hh) as (Hi & Hn & _). pose proof (inv_NoDup H f ls Hi) as Hndl.
  pose proof (keeps_synced H g p ∅ Hk) as Hs. destruct (synced_holds H g p ls Hs Hhg) as (ug & Hrg & _ & HP & Hrt).
  destruct (reachable_holds H g ug ls Hrg Hhg) as (Hig & _). pose proof Hhg as [Hgn Hgg].
  (* the additions are new *)
  remember (test_leaves u num) as adds eqn:Eadds. assert (Hsa : size adds = num) by (subst adds; apply test_leaves_size).
  assert (Hadds : adds.*1 = SetHash <$> nseq u num) by (subst adds; apply test_leaves_fst).
  assert (Hfl : filter (λ x : leaf, x.2 = true) adds = []) by (subst adds; apply test_leaves_flags). clear Eadds.
  assert (Hbd : size ls + size adds < 2 ^ 31 + size ts) by (unfold leaf in *; rewrite Hsa; lia).
  assert (Hold : forall h, h ∈ ls -> h ∉ adds.*1).
  { intros h Hin. rewrite Hadds. intros (j & -> & Hj%nseq_elem)%elem_of_list_fmap. rewrite Forall_forall in Hth. destruct (Hth _ Hin) as (i & Hil & E).
    apply SetHash_inj in E; lia. }
  assert (Hrm : NoDup (spec_remove ls ts)) by (by eapply remove_NoDup).
  assert (Hsub : forall h, h ∈ spec_remove ls ts -> h ∈ ls /\ forall t, t ∈ ts -> h <> leaf_at ls t).
  { intros h Hin. rewrite spec_remove_perm in Hin. apply survivors_iff in Hin as (i & Hil & Hni & <-). split; [by apply leaf_at_elem|].
    intros t Ht E. apply Hni. assert (i = t) as ->; [|done]. apply (leaf_at_inj ls i t Hndl Hil); [|done]. destruct Hv as [_ Hv]. rewrite Forall_forall in Hv. by apply Hv. }
  assert (Hnd : NoDup (spec_remove ls ts ++ adds.*1)).
  { apply NoDup_app. split; [done|]. split; [intros h Hin; apply Hold, Hsub, Hin|]. rewrite Hadds. apply NoDup_fmap_2_strong; [|apply nseq_NoDup].
    intros x y Hx%nseq_elem Hy%nseq_elem E. apply SetHash_inj in E; lia. }
  remember (spec_remove ls ts ++ adds.*1) as ls' eqn:Els'.
  assert (Hth' : Forall (test_hash (u + num)) ls').
  { subst ls'. apply Forall_app. split.
    - apply Forall_forall. intros h Hin. apply Hsub in Hin as [Hin _]. rewrite Forall_forall in Hth. destruct (Hth h Hin) as (i & Hil & E). exists i. split; [lia|done].
    - rewrite Hadds. apply Forall_forall. intros h (j & -> & Hj%nseq_elem)%elem_of_list_fmap. exists j. split; [lia|done]. }
  (* the forest *)
  destruct (sync_step H g p ls adds ts Hs Hhg Hbd Hv) as (bp & v & g' & p' & EFg & Ets & EV & HV & EMg & EP & Hs' & Hhg'); [by rewrite <- Els'|]. rewrite <- Els' in Hhg'.
  assert (EF : F_Prove f (leaf_at ls <$> ts) = Ok (Some bp)).
  { rewrite <- EFg. apply C10_proofs_lem; [|rewrite Hfn; lia]. apply (inv_same H f g ls Hi Hig). lia. }
  rewrite EF. cbn [bind]. rewrite Ets.
  destruct (F_Modify_ok H f ls adds ts Hi Hn Hbd Hv) as [(_ & f1 & un & _ & EM & Hi1 & Hn1 & Hd1 & Hen & Hsz1)|(Hx & _)]; [|by rewrite <- Els' in Hx].
  rewrite <- Els' in Hi1, Hn1, Hen, Hsz1. rewrite EM. cbn [bind fst snd check]. pose proof (inv_rows _ _ _ Hi) as Hrows.
  assert (Hr1 : reachable H f1 (un :: us)) by (eapply reach_modify_undo; [done| |done]; by rewrite Hfn).
  destruct (Undo_entry H f1 ls' un ls Hi1 Hn1 Hen ltac:(lia) Hn) as (f2 & EU & Hi2 & Hd2). rewrite EU. cbn [bind fst snd check].
  rewrite (inv_roots _ _ _ Hi2), (inv_roots _ _ _ Hi), (proj2 (vec_eqb_eq _ _) eq_refl). cbn [bind check].
  assert (Hr2 : reachable H f2 us) by (by eapply reach_undo).
  assert (Hfn2 : f_n f2 = size ls) by (by apply (inv_wide _ _ _ Hi2)).
  destruct (F_Modify_ok H f2 ls adds ts Hi2 Hn Hbd Hv) as [(_ & f3 & un3 & _ & EM3 & Hi3 & Hn3 & Hd3 & _)|(Hx & _)]; [|by rewrite <- Els' in Hx].
  rewrite <- Els' in Hi3. rewrite EM3. cbn [bind fst snd check].
  assert (Hr3 : reachable H f3 (un3 :: us)) by (eapply reach_modify_undo; [done| |done]; by rewrite Hfn2).
  (* the pollard *)
  rewrite EV. cbn [bind fst snd check].
  assert (Hkv : keeps H g v (∅ ∪ list_to_set (leaf_at ls <$> ts))) by (by eapply kp_accept).
  assert (Hndt : NoDup (leaf_at ls <$> ts)).
  { apply NoDup_fmap_2_strong; [|apply sorted_lt_NoDup, Hv]. destruct Hv as [_ Hv]. rewrite Forall_forall in Hv. intros x y Hx Hy E. apply (leaf_at_inj ls x y Hndl); auto. }
  destruct (C80_lem H g v _ Hkv) as (Hsv & -> & _). rewrite union_empty_l_L, size_list_to_set by done. change (N.of_nat (length (leaf_at ls <$> ts))) with (size (leaf_at ls <$> ts)). rewrite N.eqb_refl. cbn [bind check].
  destruct (C32_pollard_lem H g v Hsv) as (rs & foo & -> & Efoo & Hfoo). cbn [bind]. rewrite Efoo. cbn [bind].
  rewrite (prove_each_ok g p bp (leaf_at ls <$> ts) v Hs HV (leaf_at ls <$> ts) foo) by done. cbn [bind].
  rewrite EP. cbn [bind fst snd check].
  assert (Hk' : keeps H g' p' ∅).
  { pose proof (kp_modify H g p ∅ bp (leaf_at ls <$> ts) v adds g' p' Hk HV) as Hx. rewrite Ets, Hgn in Hx. specialize (Hx Hbd EMg EP). rewrite Hfl in Hx.
    replace ((∅ ∖ list_to_set (leaf_at ls <$> ts)) ∪ list_to_set (@nil leaf).*1) with (∅ : gset hash) in Hx; [done|]. apply set_eq. intros x. cbn. set_solver. }
  destruct (C80_lem H g' p' ∅ Hk') as (_ & -> & _). rewrite size_empty. change (N.of_nat 0 =? 0) with true. cbn [bind check].
  (* the spent proof *)
  assert (Hgone : forall h, h ∈ leaf_at ls <$> ts -> h ∉ ls').
  { intros h (t & -> & Ht)%elem_of_list_fmap Hin. rewrite Els' in Hin. apply elem_of_app in Hin as [Hin|Hin]; [by apply Hsub in Hin as [_ Hx]; apply (Hx t Ht)|].
    apply (Hold (leaf_at ls t)); [|done]. apply leaf_at_elem. destruct Hv as [_ Hv]. rewrite Forall_forall in Hv. by apply Hv. }
  assert (Hend : forall p2, keeps H g' p2 ∅ -> exists s', (let* pruned_roots := P_Roots p2 in let* _ := check (vec_eqb (F_Roots f3) pruned_roots) in Ok (ChainState f3 p2 (u + num) k' ((un, spec_roots H ls) :: undos))) = Ok s' /\
    binv s' /\ c_unique s' <= u + 128 /\ exists e, c_undos s' = e :: undos).
  { intros p2 Hk2. pose proof (keeps_synced H g' p2 ∅ Hk2) as Hs2. destruct (C25_lem H g' p2 Hs2) as [-> _]. cbn [bind].
    destruct (synced_holds H g' p2 ls' Hs2 Hhg') as (_ & _ & _ & _ & ->). rewrite (inv_roots _ _ _ Hi3), (proj2 (vec_eqb_eq _ _) eq_refl). cbn [bind check].
    eexists. split; [done|]. cbn [c_unique c_undos]. split; [|split; [lia|by eexists]]. exists g', (un3 :: us), ls'. cbn [c_full c_pruned c_unique c_undos].
    split; [done|]. split; [apply (F_GetLeaf_ok H); [done|lia]|]. split; [done|]. split; [done|]. split; [done|]. split; [pose proof (size_app' (spec_remove ls ts) adds.*1) as Hap; rewrite size_fst, <- Els' in Hap; unfold leaf in *; lia|].
    exists ls. split; [done|]. split; [lia|]. split; [done|]. split; [done|]. eapply links_mono; [|exact Hlk]. lia. }
  destruct (0 <? size (m_targets bp)) eqn:Epos.
  2: { left. cbn [bind]. by apply Hend. }
  apply N.ltb_lt in Epos. destruct HV as (Hwf & _).
  destruct (synced_holds H g' p' ls' Hs' Hhg') as (ug' & Hrg' & Hn' & HP' & _).
  pose proof (Verify_inv H p' ls' bp (leaf_at ls <$> ts) HP' Hn' Hwf) as HVi.
  destruct (P_Verify H p' bp (leaf_at ls <$> ts)) as [[b w]| | | |] eqn:EW; cbn [wp] in HVi; try done.
  - destruct b; cbn [bind fst snd negb check].
    + right. exists g', p', ls'. split; [done|]. split; [done|]. split; [eapply test_hash_mono; [|exact Hth']; lia|]. right. exists bp, (leaf_at ls <$> ts), w. split; [done|].
      destruct (C27_lem H g' p' bp _ w ls' Hs' Hhg' Hwf EW) as [Hc|HF]; [done|]. exfalso. rewrite Ets in HF.
      destruct ts as [|t ts]. { pose proof (prove_facts H g ug ls _ bp Hrg Hhg EFg) as (_ & HF2 & _). cbn [fmap list_fmap] in HF2. apply Forall2_nil_inv_l in HF2. rewrite HF2 in Epos. change (size (@nil N)) with 0 in Epos. lia. }
      cbn [fmap list_fmap] in HF. apply Forall2_cons in HF as [[Hlt Eg] _]. pose proof Hhg' as [Hgn' Hgg']. rewrite Hgn' in Hlt. rewrite Hgg' in Eg by done. apply Ok_inv in Eg.
      apply (Hgone (leaf_at ls t)); [cbn [fmap list_fmap]; by left|]. rewrite <- Eg. by apply leaf_at_elem.
    + left. apply Hend. apply (kp_reject H g' p' ∅ ∅ bp (leaf_at ls <$> ts) w Hk').
      * split; [done|]. split; [done|]. intros ls2 Hh2. assert (ls2 = ls') as -> by (by eapply holds_unique).
        destruct (C28_lem H g' p' bp _ false w ls' Hs' Hhg' Hwf EW) as (_ & _ & [Hst|[Hx _]]); [by apply stores_no_collision|discriminate Hx].
      * intros h. split; [by left|]. intros [Hx|(t & Hm & _)]; [done|]. by destruct (no_marks g' p' bp (leaf_at ls <$> ts) ls' t Hk' Hhg' Hgone Hm).
  - right. exists g', p', ls'. split; [done|]. split; [done|]. split; [eapply test_hash_mono; [|exact Hth']; lia|]. left.
    destruct HVi as [_ (r & i & Hnd' & Er & _)]. exists (N.of_nat r), i. rewrite Nat2N.id. assert (Hnode : node (size ls') (N.of_nat r) i) by (by eapply needed_node).
    split; [done|]. pose proof (PInv_stores H p' ls' HP' ltac:(lia)) as Hst. symmetry. apply (Hst (NumRows (size ls')) r i); [by apply NumRows_height|done..].
Qed.
Lemma blocks_ok num : forall s, binv s -> c_unique s + 128 * N.of_nat num < 2 ^ 31 ->
  (exists s', blocks H rnd num s = Ok s' /\ binv s' /\ length (c_undos s') = (length (c_undos s) + num)%nat) \/ broken (c_unique s + 128 * N.of_nat num).
Proof.
  induction num as [|num IH]; intros s Hs Hb; [left; exists s; split; [done|]; split; [done|lia]|]. cbn [blocks].
  destruct (block_ok s Hs ltac:(lia)) as [(s1 & -> & Hs1 & Hu1 & e & Eu)|Hbr]; [|right; eapply broken_mono; [|exact Hbr]; lia].
  cbn [bind]. destruct (IH s1 Hs1 ltac:(lia)) as [(s2 & -> & Hs2 & El)|Hbr]; [|right; eapply broken_mono; [|exact Hbr]; lia].
  left. exists s2. split; [done|]. split; [done|]. rewrite El, Eu. cbn [length]. lia.
Qed.
Lemma blockchain_lem num : 8 + 128 * N.of_nat num < 2 ^ 31 -> simple_blockchain H rnd num = Ok tt \/ broken (8 + 128 * N.of_nat num).
Proof.
  intros Hb. unfold simple_blockchain. cbv zeta. assert (H62 : 2 ^ 31 <= 2 ^ 62) by done.
  remember (test_leaves 0 8) as adds eqn:Eadds. assert (Hsa : size adds = 8) by (subst adds; apply test_leaves_size).
  assert (Hadds : adds.*1 = SetHash <$> nseq 0 8) by (subst adds; apply test_leaves_fst).
  assert (Hfl : filter (λ x : leaf, x.2 = true) adds = []) by (subst adds; apply test_leaves_flags). clear Eadds.
  assert (Hh0 : holds_leaves (RamForest_new 0) []) by (split; [done|]; intros i Hi; change (size (@nil N)) with 0 in Hi; lia).
  assert (Hbd : size (@nil hash) + size adds < 2 ^ 31 + size (@nil N)).
  { change (size (@nil N)) with 0. unfold leaf in *. rewrite Hsa. lia. }
  assert (Hnd : NoDup (spec_remove [] [] ++ adds.*1)).
  { rewrite Hadds. change (spec_remove [] []) with (@nil hash). rewrite app_nil_l. apply NoDup_fmap_2_strong; [|apply nseq_NoDup]. intros x y Hx%nseq_elem Hy%nseq_elem E. apply SetHash_inj in E; lia. }
  destruct (sync_step H _ _ [] adds [] (sy_new H) Hh0 Hbd (valid_nil _) Hnd) as (bp & v & g & p & EF & Ets & EV & HV & EM & EP & Hs & Hh).
  destruct (F_Modify_ok H (RamForest_new 0) [] adds [] (inv_new H) ltac:(done) Hbd (valid_nil _)) as [(_ & f & un & EM2 & EU & Hi & Hn & Hd & _)|(Hx & _)]; [|done].
  cbn [fmap list_fmap] in EF, EV, HV. rewrite prove_nothing in EF. injection EF as <-. assert (Ev : v = Pollard_new 0) by (rewrite verify_nothing in EV; congruence). subst v.
  rewrite EU. cbn [bind]. rewrite EP. cbn [bind fst snd].
  change (spec_remove [] [] ++ adds.*1) with adds.*1 in *. rewrite Hadds in Hh, Hi, Hn.
  destruct (blocks_ok num (ChainState f p 8 0 [])) as [(s & -> & Hs' & El)|Hbr]; [|done| |by right].
  { assert (Hr : reachable H f [un]) by (eapply (reach_modify_undo H _ [] adds []); [constructor|exact Hbd|done]).
    exists g, [un], (SetHash <$> nseq 0 8). cbn [c_full c_pruned c_unique c_undos]. split; [done|]. split; [apply (F_GetLeaf_ok H); [done|lia]|]. split; [done|]. split; [|split; [|split; [|done]]].
    - pose proof (kp_modify H (RamForest_new 0) (Pollard_new 0) ∅ _ [] (Pollard_new 0) adds g p (kp_new H) HV) as Hx. cbn [m_sorted_targets] in Hx. rewrite Ets in Hx. specialize (Hx Hbd EM EP). rewrite Hfl in Hx.
      replace ((∅ ∖ list_to_set []) ∪ list_to_set (@nil leaf).*1) with (∅ : gset hash) in Hx; [done|]. apply set_eq. intros x. cbn. set_solver.
    - apply Forall_forall. intros h (j & -> & Hj%nseq_elem)%elem_of_list_fmap. exists j. split; [lia|done].
    - unfold size. rewrite fmap_length, nseq_length. lia. }
  left. cbn [bind]. destruct Hs' as (g' & us & ls & Hr & Hh' & _ & _ & _ & _ & Hlk). destruct (reachable_holds H _ us ls Hr Hh') as (Hi' & Hn' & _).
  destruct (rollback_ok (c_undos s) (c_full s) ls Hi' Hn' Hlk) as (f2 & ls2 & -> & Hi2 & Hn2). cbn [bind]. rewrite El. cbn [c_undos length]. rewrite Nat.add_0_l, Nat.eqb_refl. cbn [bind check].
  unfold destroy. assert (Hm : 2 ^ 31 = int_max + 1) by done. rewrite (F_Commit_ok H f2 ls2 [] Hi2) by lia. done.
Qed.
End Unit.
