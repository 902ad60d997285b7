(** * ProveFacts: ProofPositions, CheckSanity and Prove (proofs) *)
From stdpp Require Import sorting.
From Verif Require Import Base StateModel CodecModel ForestModel PosSpec PosFacts PathFacts MerkleSpec CodecSpec CodecFacts TargetFacts ForestFacts
  RowFacts TransformFacts SpecFacts RemoveFacts ForestInv AddFacts UndoFacts CommitFacts ForestSpec HistFacts ProofSpec.
From Coq Require Import ZifyBool ZifyNat ZifyN.
Ltac Zify.zify_post_hook ::= idtac.
Ltac dlia := zify; Z.div_mod_to_equations; lia.

Lemma sib_cases i : (i mod 2 = 0 /\ sib i = i + 1) \/ (i mod 2 = 1 /\ sib i = i - 1).
Proof. unfold sib. rewrite even_mod. destruct (N.eqb_spec (i mod 2) 0); [left|right]; [done|]. split; [|done]. dlia. Qed.
Lemma sib_sib i : sib (sib i) = i.
Proof. pose proof (sib_cases i). pose proof (sib_cases (sib i)). dlia. Qed.
Lemma sib_half i : sib i / 2 = i / 2.
Proof. pose proof (sib_cases i). dlia. Qed.
Lemma sib_ne i : sib i <> i.
Proof. pose proof (sib_cases i). dlia. Qed.
Lemma sib_pair i j : i / 2 = j / 2 -> i <> j -> j = sib i.
Proof. intros H1 H2. pose proof (sib_cases i). dlia. Qed.

(** ** One row, on indices *)
Fixpoint scan1 (l : list N) : list N * list N :=
  match l with
  | [] => ([], [])
  | i :: r =>
      match r with
      | j :: r' => if i / 2 =? j / 2 then let p := scan1 r' in (p.1, i / 2 :: p.2)
                   else let p := scan1 r in (sib i :: p.1, i / 2 :: p.2)
      | [] => ([sib i], [i / 2])
      end
  end.
Lemma scan1_pair i j l : i / 2 = j / 2 -> scan1 (i :: j :: l) = ((scan1 l).1, i / 2 :: (scan1 l).2).
Proof. intros E. cbn [scan1]. by destruct (N.eqb_spec (i / 2) (j / 2)). Qed.
Lemma scan1_single i l : match l with j :: _ => i / 2 <> j / 2 | [] => True end ->
  scan1 (i :: l) = (sib i :: (scan1 l).1, i / 2 :: (scan1 l).2).
Proof. intros E. destruct l as [|j l]; [done|]. cbn [scan1]. by destruct (N.eqb_spec (i / 2) (j / 2)). Qed.

Lemma scan1_next l : StronglySorted N.lt l ->
  StronglySorted N.lt (scan1 l).2 /\ forall x, x ∈ (scan1 l).2 <-> exists i, i ∈ l /\ i / 2 = x.
Proof.
  remember (length l) as k eqn:Ek. revert l Ek. induction (lt_wf k) as [k _ IH]. intros l Ek Hs.
  destruct l as [|i l]; [split; [constructor|]; intros x; split; [by intros ?%elem_of_nil|by intros (? & ?%elem_of_nil & _)]|].
  apply StronglySorted_inv in Hs as [Hs Hf]. rewrite Forall_forall in Hf.
  destruct l as [|j l].
  { cbn [scan1 snd]. split; [repeat constructor|]. intros x. rewrite elem_of_list_singleton. split.
    - intros ->. exists i. split; [left|done].
    - by intros (y & ->%elem_of_list_singleton & <-). }
  destruct (decide (i / 2 = j / 2)) as [E|E].
  - rewrite (scan1_pair _ _ _ E). apply StronglySorted_inv in Hs as [Hs Hf']. rewrite Forall_forall in Hf'.
    destruct (IH (length l) ltac:(cbn in Ek; lia) l eq_refl Hs) as [IH1 IH2]. cbn [snd]. split.
    + constructor; [done|]. apply Forall_forall. intros x (y & Hy & <-)%IH2.
      pose proof (Hf j ltac:(left)). pose proof (Hf' y Hy). dlia.
    + intros x. rewrite elem_of_cons, IH2. split.
      * intros [->|(y & Hy & <-)]; [exists i; split; [left|done]|]. exists y. split; [by do 2 right|done].
      * intros (y & Hy & <-). apply elem_of_cons in Hy as [->|Hy]; [by left|]. apply elem_of_cons in Hy as [->|Hy]; [by left|].
        right. by exists y.
  - rewrite (scan1_single i (j :: l) E). destruct (IH (length (j :: l)) ltac:(cbn in Ek |- *; lia) (j :: l) eq_refl Hs) as [IH1 IH2]. cbn [snd]. split.
    + constructor; [done|]. apply Forall_forall. intros x (y & Hy & <-)%IH2.
      apply StronglySorted_inv in Hs as [Hs Hf']. rewrite Forall_forall in Hf'. pose proof (Hf j ltac:(left)).
      apply elem_of_cons in Hy as [->|Hy]; [dlia|]. pose proof (Hf' y Hy). dlia.
    + intros x. rewrite elem_of_cons, IH2. split.
      * intros [->|(y & Hy & <-)]; [exists i; split; [left|done]|]. exists y. split; [by right|done].
      * intros (y & Hy & <-). apply elem_of_cons in Hy as [->|Hy]; [by left|]. right. by exists y.
Qed.
Lemma scan1_proof l : StronglySorted N.lt l ->
  StronglySorted N.lt (scan1 l).1 /\ forall x, x ∈ (scan1 l).1 <-> sib x ∈ l /\ x ∉ l.
Proof.
  remember (length l) as k eqn:Ek. revert l Ek. induction (lt_wf k) as [k _ IH]. intros l Ek Hs.
  destruct l as [|i l]; [split; [constructor|]; intros x; split; [by intros ?%elem_of_nil|by intros (?%elem_of_nil & _)]|].
  apply StronglySorted_inv in Hs as [Hs Hf]. rewrite Forall_forall in Hf.
  destruct l as [|j l].
  { cbn [scan1 fst]. split; [repeat constructor|]. intros x. rewrite !elem_of_list_singleton. split.
    - intros ->. rewrite sib_sib. split; [done|]. apply sib_ne.
    - intros [<- _]. by rewrite sib_sib. }
  destruct (decide (i / 2 = j / 2)) as [E|E].
  - rewrite (scan1_pair _ _ _ E). apply StronglySorted_inv in Hs as [Hs Hf']. rewrite Forall_forall in Hf'.
    destruct (IH (length l) ltac:(cbn in Ek; lia) l eq_refl Hs) as [IH1 IH2]. cbn [fst]. split; [done|].
    pose proof (Hf j ltac:(left)) as Hij. assert (Hsj : j = sib i) by (apply sib_pair; [done|lia]).
    intros x. rewrite IH2, !elem_of_cons. split.
    + intros [H1 H2]. split; [by do 2 right|]. pose proof (Hf' _ H1). pose proof (sib_half x).
      intros [->|[->|?]]; [| |done]; dlia.
    + intros [H1 H2]. split; [|tauto]. destruct H1 as [H1|[H1|H1]]; [| |done]; exfalso; apply H2.
      * right. left. rewrite Hsj, <- H1. by rewrite sib_sib.
      * left. rewrite <- (sib_sib i), <- Hsj, <- H1. by rewrite sib_sib.
  - rewrite (scan1_single i (j :: l) E). destruct (IH (length (j :: l)) ltac:(cbn in Ek |- *; lia) (j :: l) eq_refl Hs) as [IH1 IH2]. cbn [fst].
    assert (Hgt : forall y, y ∈ j :: l -> i / 2 < y / 2).
    { intros y Hy. apply StronglySorted_inv in Hs as [Hs Hf']. rewrite Forall_forall in Hf'. pose proof (Hf j ltac:(left)).
      apply elem_of_cons in Hy as [->|Hy]; [dlia|]. pose proof (Hf' y Hy). dlia. }
    split.
    + constructor; [done|]. apply Forall_forall. intros x [Hx _]%IH2. pose proof (Hgt _ Hx). pose proof (sib_half x). pose proof (sib_half i). dlia.
    + intros x. rewrite elem_of_cons, IH2. split.
      * intros [->|[H1 H2]].
        -- rewrite sib_sib. split; [left|]. intros [Hx|Hx]%elem_of_cons; [by apply (sib_ne i)|]. pose proof (Hgt _ Hx). pose proof (sib_half i). lia.
        -- split; [by right|]. intros [->|Hx]%elem_of_cons; [|done]. pose proof (Hgt _ H1). pose proof (sib_half i). lia.
      * intros [H1 H2]. apply not_elem_of_cons in H2 as [H2 H3]. apply elem_of_cons in H1 as [H1|H1]; [left|by right].
        by rewrite <- H1, sib_sib.
Qed.

Section PP.
Context (n : N) (Hn : n <= 2 ^ 62).
Notation R := (NumRows n).

Lemma enc_eqb r i j : (enc R r i =? enc R r j) = (i =? j).
Proof. rewrite (enc_shift R r i), (enc_shift R r j). destruct (N.eqb_spec i j) as [->|]; [apply N.eqb_refl|]. apply N.eqb_neq. lia. Qed.
Lemma rs_eqb r i j : r <= R -> (RightSibling (enc R r i) =? enc R r j) = (i / 2 * 2 + 1 =? j).
Proof. intros. by rewrite RightSibling_ok, enc_eqb. Qed.
Lemma rs_rs_eqb r i j : r <= R -> (RightSibling (enc R r i) =? RightSibling (enc R r j)) = (i / 2 =? j / 2).
Proof.
  intros. rewrite !RightSibling_ok, enc_eqb by done. destruct (N.eqb_spec (i / 2) (j / 2)) as [->|]; [apply N.eqb_refl|]. apply N.eqb_neq. lia.
Qed.
Lemma cousin_eqb r i j : r < R -> i < j ->
  (Cousin (RightSibling (enc R r i)) =? RightSibling (enc R r j)) = ((i / 2) mod 2 =? 0) && (i / 2 + 1 =? j / 2).
Proof.
  intros Hr Hij. rewrite !RightSibling_ok, Cousin_ok, enc_eqb by lia.
  destruct (N.eqb_spec (4 * ((i / 2 * 2 + 1) / 4) + (i / 2 * 2 + 1 + 2) mod 4) (j / 2 * 2 + 1)) as [E|E]; symmetry.
  - apply andb_true_iff. rewrite !N.eqb_eq. dlia.
  - apply andb_false_iff. rewrite !N.eqb_neq. dlia.
Qed.

Lemma pp_case_ok r l : l <> [] -> r < R -> StronglySorted N.lt l -> (forall i, i ∈ l -> slot R r i) ->
  exists pr nx k, pp_case n (enc R r <$> l) = Ok (enc R r <$> pr, enc R (r + 1) <$> nx, k) /\ (1 <= k)%nat /\
    scan1 l = (pr ++ (scan1 (drop k l)).1, nx ++ (scan1 (drop k l)).2).
Proof.
  intros Hne Hr Hs Hsl. destruct l as [|i0 l]; [done|]. clear Hne.
  assert (HP : forall i, i ∈ i0 :: l -> Parent n (enc R r i) = Ok (enc R (r + 1) (i / 2))) by (intros i Hi; apply Parent_ok; auto).
  assert (HS : forall i, Sibling (enc R r i) = enc R r (sib i)) by (intros i; apply Sibling_ok; lia).
  assert (Hone : match l with j :: _ => i0 / 2 <> j / 2 | [] => True end ->
    exists pr nx k, (let* p0 := Parent n (enc R r i0) in Ok ([Sibling (enc R r i0)], [p0], 1%nat)) =
      Ok (enc R r <$> pr, enc R (r + 1) <$> nx, k) /\ (1 <= k)%nat /\
      scan1 (i0 :: l) = (pr ++ (scan1 (drop k (i0 :: l))).1, nx ++ (scan1 (drop k (i0 :: l))).2)).
  { intros Hx. exists [sib i0], [i0 / 2], 1%nat. rewrite HP by left. cbn [bind]. rewrite HS. split; [done|]. split; [lia|].
    rewrite (scan1_single _ _ Hx). done. }
  destruct l as [|i1 l]; [by apply Hone|].
  pose proof (HP i0 ltac:(left)) as P0. pose proof (HP i1 ltac:(right; left)) as P1.
  apply StronglySorted_inv in Hs as [Hs H0]. apply StronglySorted_inv in Hs as [Hs H1]. rewrite Forall_forall in H0, H1.
  pose proof (H0 i1 ltac:(left)) as H01.
  assert (Htwo : match l with j :: _ => (i0 / 2) mod 2 = 0 -> i0 / 2 + 1 <> j / 2 | [] => True end ->
    exists pr nx k, (if RightSibling (enc R r i0) =? enc R r i1 then
          let* p0 := Parent n (enc R r i0) in Ok ([], [p0], 2%nat)
        else if Cousin (RightSibling (enc R r i0)) =? RightSibling (enc R r i1) then
          let* p0 := Parent n (enc R r i0) in
          let* p1 := Parent n (enc R r i1) in
          Ok ([Sibling (enc R r i0); Sibling (enc R r i1)], [p0; p1], 2%nat)
        else let* p0 := Parent n (enc R r i0) in Ok ([Sibling (enc R r i0)], [p0], 1%nat)) =
      Ok (enc R r <$> pr, enc R (r + 1) <$> nx, k) /\ (1 <= k)%nat /\
      scan1 (i0 :: i1 :: l) = (pr ++ (scan1 (drop k (i0 :: i1 :: l))).1, nx ++ (scan1 (drop k (i0 :: i1 :: l))).2)).
  { intros Hx. rewrite rs_eqb by lia. destruct (N.eqb_spec (i0 / 2 * 2 + 1) i1) as [E|E].
    - exists [], [i0 / 2], 2%nat. rewrite P0. cbn [bind]. split; [done|]. split; [lia|]. rewrite scan1_pair; [done|]. dlia.
    - rewrite cousin_eqb by lia. destruct (_ && _) eqn:Ec.
      + apply andb_true_iff in Ec as [Ea Eb]. apply N.eqb_eq in Ea, Eb. exists [sib i0; sib i1], [i0 / 2; i1 / 2], 2%nat.
        rewrite P0, P1. cbn [bind]. rewrite !HS. split; [done|]. split; [lia|]. rewrite scan1_single by lia. rewrite scan1_single; [done|].
        destruct l as [|j l]; [done|]. specialize (Hx Ea). lia.
      + apply Hone. dlia. }
  destruct l as [|i2 l]; [by apply Htwo|].
  pose proof (HP i2 ltac:(do 2 right; left)) as P2. apply StronglySorted_inv in Hs as [Hs H2]. rewrite Forall_forall in H2.
  pose proof (H1 i2 ltac:(left)) as H12.
  assert (Hthree : match l with j :: _ => (i0 / 2) mod 2 = 0 -> i0 / 2 + 1 <> j / 2 | [] => True end ->
    exists pr nx k, (if Cousin (RightSibling (enc R r i0)) =? RightSibling (enc R r i2) then
          let* p0 := Parent n (enc R r i0) in
          let* p2 := Parent n (enc R r i2) in
          Ok ([if RightSibling (enc R r i1) =? RightSibling (enc R r i0) then Sibling (enc R r i2) else Sibling (enc R r i0)], [p0; p2], 3%nat)
        else if RightSibling (enc R r i0) =? enc R r i1 then
          let* p0 := Parent n (enc R r i0) in Ok ([], [p0], 2%nat)
        else if Cousin (RightSibling (enc R r i0)) =? RightSibling (enc R r i1) then
          let* p0 := Parent n (enc R r i0) in
          let* p1 := Parent n (enc R r i1) in
          Ok ([Sibling (enc R r i0); Sibling (enc R r i1)], [p0; p1], 2%nat)
        else let* p0 := Parent n (enc R r i0) in Ok ([Sibling (enc R r i0)], [p0], 1%nat)) =
      Ok (enc R r <$> pr, enc R (r + 1) <$> nx, k) /\ (1 <= k)%nat /\
      scan1 (i0 :: i1 :: i2 :: l) = (pr ++ (scan1 (drop k (i0 :: i1 :: i2 :: l))).1, nx ++ (scan1 (drop k (i0 :: i1 :: i2 :: l))).2)).
  { intros Hx. rewrite cousin_eqb by lia. destruct (_ && _) eqn:Ec.
    - apply andb_true_iff in Ec as [Ea Eb]. apply N.eqb_eq in Ea, Eb. rewrite rs_rs_eqb by lia. rewrite P0, P2. cbn [bind]. rewrite !HS.
      destruct (N.eqb_spec (i1 / 2) (i0 / 2)) as [E|E].
      + exists [sib i2], [i0 / 2; i2 / 2], 3%nat. split; [done|]. split; [lia|]. rewrite scan1_pair by lia. rewrite scan1_single; [done|].
        destruct l as [|j l]; [done|]. specialize (Hx Ea). lia.
      + exists [sib i0], [i0 / 2; i2 / 2], 3%nat. split; [done|]. split; [lia|]. rewrite scan1_single by lia. rewrite scan1_pair by dlia.
        cbn [drop fst snd app]. do 3 f_equal. dlia.
    - apply Htwo. dlia. }
  destruct l as [|i3 l]; [by apply Hthree|].
  pose proof (HP i3 ltac:(do 3 right; left)) as P3. pose proof (H2 i3 ltac:(left)) as H23.
  cbn [fmap list_fmap pp_case]. rewrite (cousin_eqb r i0 i3) by lia. destruct (_ && _) eqn:Ec.
  - apply andb_true_iff in Ec as [Ea Eb]. apply N.eqb_eq in Ea, Eb. rewrite P0, P3. cbn [bind].
    exists [], [i0 / 2; i3 / 2], 4%nat. split; [done|]. split; [lia|]. rewrite scan1_pair by dlia. rewrite scan1_pair by dlia.
    cbn [drop fst snd app]. do 3 f_equal. dlia.
  - apply Hthree. dlia.
Qed.

Lemma scan1_nil l : (scan1 l).2 = [] -> l = [].
Proof. destruct l as [|i [|j l]]; [done|done|]. cbn [scan1]. by destruct (_ =? _). Qed.
Lemma sorted_drop k (l : list N) : StronglySorted N.lt l -> StronglySorted N.lt (drop k l).
Proof. revert l. induction k as [|k IH]; intros l Hs; [by rewrite drop_0|]. destruct l as [|x l]; [done|]. cbn [drop]. apply IH. by apply StronglySorted_inv in Hs as [? _]. Qed.

Lemma pp_scan_ok r fuel l : (length l <= fuel)%nat -> r < R \/ l = [] -> StronglySorted N.lt l -> (forall i, i ∈ l -> slot R r i) ->
  pp_scan fuel n (enc R r <$> l) = Ok (enc R r <$> (scan1 l).1, enc R (r + 1) <$> (scan1 l).2).
Proof.
  revert l. induction fuel as [|fuel IH]; intros l Hl Hr Hs Hsl; (destruct l as [|i l]; [done|]); [cbn in Hl; lia|].
  destruct Hr as [Hr|Hr]; [|done]. destruct (pp_case_ok r (i :: l) ltac:(done) Hr Hs Hsl) as (pr & nx & k & Ec & Hk & Esc).
  change (enc R r <$> i :: l) with (enc R r i :: (enc R r <$> l)) at 1. cbn [pp_scan].
  change (enc R r i :: (enc R r <$> l)) with (enc R r <$> i :: l). rewrite Ec. cbn [bind]. rewrite <- fmap_drop.
  rewrite IH; [|rewrite drop_length; cbn in Hl |- *; lia|by left|by apply sorted_drop|].
  - cbn [bind fst snd]. rewrite Esc. cbn [fst snd]. by rewrite !fmap_app.
  - intros x Hx. apply Hsl. rewrite <- (take_drop k (i :: l)). apply elem_of_app. by right.
Qed.

(** ** All rows *)
Lemma node_max r i : node n r i <-> i < n / 2 ^ r.
Proof.
  unfold node. pose proof (pow_pos r). generalize dependent (2 ^ r). intros P HP. split; intros Hx.
  - assert (i + 1 <= n / P); [|lia]. apply N.div_le_lower_bound; lia.
  - pose proof (N.mul_div_le n P ltac:(lia)). nia.
Qed.
Lemma node_row r i : node n r i -> r <= R.
Proof. intros Hx. by destruct (node_slot _ _ _ Hx). Qed.
Lemma last_removelast (l : list N) x : last l = Some x -> l = removelast l ++ [x].
Proof.
  intros Hl. destruct l as [|y l]; [done|]. rewrite (app_removelast_last 0 (l := y :: l)) at 1 by done. do 2 f_equal.
  clear -Hl. revert y Hl. induction l as [|z l IH]; intros y Hl; [by injection Hl|]. change (last (z :: l) = Some x) in Hl. cbn [List.last]. by apply IH.
Qed.
Lemma removelast_fmap {A B} (g : A -> B) l : removelast (g <$> l) = g <$> removelast l.
Proof. induction l as [|x [|y l] IH]; [done|done|]. cbn [fmap list_fmap removelast] in *. by rewrite IH. Qed.
Lemma sorted_snoc (l : list N) x : StronglySorted N.lt (l ++ [x]) -> StronglySorted N.lt l /\ forall y, y ∈ l -> y < x.
Proof.
  induction l as [|z l IH]; intros Hs; [split; [constructor|by intros ? ?%elem_of_nil]|]. cbn [app] in Hs. apply StronglySorted_inv in Hs as [Hs Hf].
  destruct (IH Hs) as [H1 H2]. apply Forall_app in Hf as [Hf1 Hf2]. apply Forall_inv in Hf2. split; [by constructor|].
  intros y [->|Hy]%elem_of_cons; [done|]. by apply H2.
Qed.

Lemma strip_root_ok r l : r <= R -> StronglySorted N.lt l -> (forall i, i ∈ l -> node n r i) ->
  exists l', pp_strip_root n r (enc R r <$> l) = Ok (enc R r <$> l') /\ StronglySorted N.lt l' /\
    forall i, i ∈ l' <-> i ∈ l /\ ~ is_root n r i.
Proof.
  intros Hr Hs Hnd. pose proof (R62 n Hn) as H62. unfold pp_strip_root. rewrite HasRoot_ok by lia. cbn [bind].
  destruct (N.testbit n r) eqn:Eb.
  - rewrite fmap_last. destruct (last l) as [x|] eqn:El; cbn [fmap option_fmap option_map].
    2: { exists l. split; [done|]. split; [done|]. apply last_None in El as ->. intros i. split; [by intros ?%elem_of_nil|by intros [?%elem_of_nil _]]. }
    rewrite (RootPosition_ok n Hn r Hr). cbn [bind]. rewrite enc_eqb. pose proof (last_removelast _ _ El) as Er.
    assert (Hs0 := Hs). rewrite Er in Hs0. apply sorted_snoc in Hs0 as [Hs1 Hs2]. destruct (N.eqb_spec x (2 * (n / 2 ^ (r + 1)))) as [E|E].
    + exists (removelast l). rewrite removelast_fmap. split; [done|]. split; [done|]. intros i. split.
      * intros Hi. split; [rewrite Er; apply elem_of_app; by left|]. rewrite is_root_iff. intros [_ E']. pose proof (Hs2 i Hi). lia.
      * intros [Hi Hx]. rewrite Er in Hi. apply elem_of_app in Hi as [Hi|Hi]; [done|]. apply elem_of_list_singleton in Hi as ->.
        destruct Hx. by apply is_root_iff.
    + exists l. split; [done|]. split; [done|]. intros i. split; [|tauto]. intros Hi. split; [done|]. rewrite is_root_iff. intros [_ E'].
      assert (Hle : i <= x). { rewrite Er in Hi. apply elem_of_app in Hi as [Hi|Hi%elem_of_list_singleton]; [|lia]. pose proof (Hs2 i Hi). lia. }
      assert (Hx : x ∈ l) by (rewrite Er; apply elem_of_app; right; left). apply Hnd, node_max in Hx.
      rewrite testbit_mod in Eb. rewrite div_pow_S in E, E'. apply N.eqb_eq in Eb. dlia.
  - exists l. split; [done|]. split; [done|]. intros i. rewrite is_root_iff, Eb. split; [|tauto]. intros Hi. split; [done|]. by intros [? _].
Qed.

Context (ts : list N) (Hts : valid_targets n ts).
Definition row_ok (r : N) (l : list N) : Prop := StronglySorted N.lt l /\ forall i, i ∈ l <-> computed n ts r i.

Lemma row_next r l l' : row_ok r l -> StronglySorted N.lt l' -> (forall i, i ∈ l' <-> i ∈ l /\ ~ is_root n r i) -> row_ok (r + 1) (scan1 l').2.
Proof.
  intros [Hs Hc] Hs' Hl'. destruct (scan1_next l' Hs') as [H1 H2]. split; [done|]. intros x. rewrite H2. split.
  - intros (i & Hi & <-). apply Hl' in Hi as [Hi Hx]. apply Hc in Hi as [Hnd (t & Ht & <-)]. split.
    + destruct (decide (node n (r + 1) (t / 2 ^ r / 2))) as [?|Hx']; [done|]. by destruct Hx.
    + exists t. split; [done|]. apply div_pow_S.
  - intros [Hnd (t & Ht & <-)]. exists (t / 2 ^ r). rewrite div_pow_S in *. split; [|done]. apply Hl'. split.
    + apply Hc. split; [|by exists t]. unfold node in *. rewrite pow_S in Hnd. pose proof (pow_pos r). generalize dependent (2 ^ r). intros P Hnd HP.
      assert (t / P + 1 <= 2 * (t / P / 2 + 1)) by dlia. nia.
    + by intros [_ Hx].
Qed.
Lemma row_proof r l l' : row_ok r l -> StronglySorted N.lt l' -> (forall i, i ∈ l' <-> i ∈ l /\ ~ is_root n r i) ->
  StronglySorted N.lt (scan1 l').1 /\ forall i, i ∈ (scan1 l').1 <-> needed n ts r i.
Proof.
  intros [Hs Hc] Hs' Hl'. destruct (scan1_proof l' Hs') as [H1 H2]. split; [done|]. intros x. rewrite H2, !Hl', !Hc. unfold needed. split.
  - intros [[Ha Hb] Hd]. split; [done|]. split; [done|]. intros Hx. apply Hd. split; [done|]. intros [_ Hr]. rewrite <- sib_half in Hr.
    apply Hb. split; [apply Ha|done].
  - intros (Ha & Hb & Hd). tauto.
Qed.

Lemma enc_row_lt r i r' i' : slot R r i -> slot R r' i' -> r < r' -> enc R r i < enc R r' i'.
Proof.
  intros [H1 H2] [H3 H4] Hlt. pose proof (enc_eq R r i ltac:(lia)) as E. pose proof (enc_eq R r' i' ltac:(lia)) as E'.
  pose proof (pow_mono (R + 1 - r') (R - r) ltac:(lia)). rewrite slot_pow in E by done. lia.
Qed.
Lemma sorted_app_lt (a b : list N) : StronglySorted N.lt a -> StronglySorted N.lt b -> (forall x y, x ∈ a -> y ∈ b -> x < y) -> StronglySorted N.lt (a ++ b).
Proof.
  intros Ha Hb Hab. induction Ha as [|x a Ha IH Hf]; [done|]. cbn [app]. constructor.
  - apply IH. intros u v Hu. apply Hab. by right.
  - apply Forall_app. split; [done|]. apply Forall_forall. intros y. apply Hab. left.
Qed.
Lemma sorted_enc r l : StronglySorted N.lt l -> StronglySorted N.lt (enc R r <$> l).
Proof.
  induction 1 as [|x l Hs IH Hf]; cbn [fmap list_fmap]; constructor; [done|]. apply Forall_fmap. eapply Forall_impl; [done|]. intros y Hy. cbn.
  rewrite (enc_shift R r x), (enc_shift R r y). lia.
Qed.

Lemma pp_rows_ok k : forall r l, r + N.of_nat k = R + 1 -> row_ok r l ->
  exists P C, pp_rows k r n (enc R r <$> l) = Ok (P, C) /\
    lists_nodes R (fun r' i => r <= r' /\ needed n ts r' i) P /\ lists_nodes R (fun r' i => r <= r' /\ computed n ts r' i) C.
Proof.
  induction k as [|k IH]; intros r l Hk Hrow.
  - exists [], []. split; [done|]. split; (split; [constructor|]); intros p; (split; [by intros ?%elem_of_nil|]); intros (r' & i & [Hr' _] & _ & Hle & _); lia.
  - cbn [pp_rows]. destruct (strip_root_ok r l ltac:(lia) (proj1 Hrow)) as (l' & E & Hs' & Hl').
    { intros i Hi. by apply Hrow in Hi as [? _]. }
    rewrite E. cbn [bind]. rewrite fmap_length.
    assert (Hsl' : forall i, i ∈ l' -> slot R r i /\ r < R).
    { intros i [Hi Hx]%Hl'. apply Hrow in Hi as [Hnd _]. split; [by apply node_slot|]. assert (r <> R); [|lia]. intros ->. apply Hx. split; [done|].
      intros Hnd'%node_row. lia. }
    rewrite pp_scan_ok; [|lia| |done|intros i Hi; by apply Hsl'].
    2: { destruct l' as [|x l']; [by right|]. left. by apply (Hsl' x); left. }
    cbn [bind fst snd]. destruct (row_proof r l l' Hrow Hs' Hl') as [Hp1 Hp2].
    destruct (IH (r + 1) (scan1 l').2 ltac:(lia) (row_next r l l' Hrow Hs' Hl')) as (P & C & E2 & [HP1 HP2] & [HC1 HC2]).
    rewrite E2. cbn [bind fst snd]. eexists _, _. split; [done|].
    assert (Hsn : forall i, needed n ts r i -> slot R r i).
    { intros i Hi%Hp2. destruct (scan1_proof l' Hs') as [_ H2]. apply H2 in Hi as [Hi _]. apply Hsl' in Hi as [[H1 H3] Hr]. split; [done|].
      pose proof (sib_half i). replace (R - r) with (R - r - 1 + 1) in * by lia. rewrite pow_S in *. dlia. }
    assert (Hsc : forall i, computed n ts r i -> slot R r i) by (intros i [Hi _]; by apply node_slot).
    split; split.
    + apply sorted_app_lt; [by apply sorted_enc|done|]. intros x y (i & -> & Hi%Hp2)%elem_of_list_fmap (r' & j & Hj & -> & Hle & _)%HP2.
      apply enc_row_lt; [by apply Hsn|done|lia].
    + intros p. rewrite elem_of_app, elem_of_list_fmap, HP2. split.
      * intros [(i & -> & Hi%Hp2)|(r' & i & Hs & -> & Hle & Hx)].
        -- exists r, i. split; [by apply Hsn|]. split; [done|]. split; [lia|done].
        -- exists r', i. split; [done|]. split; [done|]. split; [lia|done].
      * intros (r' & i & Hs & -> & Hle & Hx). destruct (decide (r' = r)) as [->|Hne].
        -- left. exists i. split; [done|]. by apply Hp2.
        -- right. exists r', i. split; [done|]. split; [done|]. split; [lia|done].
    + apply sorted_app_lt; [by apply sorted_enc, Hrow|done|]. intros x y (i & -> & Hi%Hrow)%elem_of_list_fmap (r' & j & Hj & -> & Hle & _)%HC2.
      apply enc_row_lt; [by apply Hsc|done|lia].
    + intros p. rewrite elem_of_app, elem_of_list_fmap, HC2. split.
      * intros [(i & -> & Hi%Hrow)|(r' & i & Hs & -> & Hle & Hx)].
        -- exists r, i. split; [by apply Hsc|]. split; [done|]. split; [lia|done].
        -- exists r', i. split; [done|]. split; [done|]. split; [lia|done].
      * intros (r' & i & Hs & -> & Hle & Hx). destruct (decide (r' = r)) as [->|Hne].
        -- left. exists i. split; [done|]. by apply Hrow.
        -- right. exists r', i. split; [done|]. split; [done|]. split; [lia|done].
Qed.

Lemma ProofPositions_ok : exists P C, ProofPositions n ts = Ok (P, C) /\ lists_nodes R (needed n ts) P /\ lists_nodes R (computed n ts) C.
Proof.
  destruct (pp_rows_ok (S (N.to_nat R)) 0 ts ltac:(lia)) as (P & C & E & HP & HC).
  { destruct Hts as [Hs Hf]. split; [done|]. rewrite Forall_forall in Hf. intros i. unfold computed, node. change (2 ^ 0) with 1. split.
    - intros Hi. pose proof (Hf i Hi). split; [lia|]. exists i. split; [done|]. apply N.div_1_r.
    - intros [_ (t & Ht & <-)]. by rewrite N.div_1_r. }
  unfold ProofPositions. assert (Ez : enc R 0 <$> ts = ts) by (rewrite <- (list_fmap_id ts) at 2; apply list_fmap_ext; intros; apply enc_0).
  rewrite Ez in E. exists P, C. split; [done|].
  destruct HP as [HP1 HP2], HC as [HC1 HC2]. split; (split; [done|]).
  - intros p. rewrite HP2. split; intros (r & i & Hs & -> & Hx); exists r, i; (split; [done|]); (split; [done|]); [apply Hx|]. split; [lia|done].
  - intros p. rewrite HC2. split; intros (r & i & Hs & -> & Hx); exists r, i; (split; [done|]); (split; [done|]); [apply Hx|]. split; [lia|done].
Qed.
End PP.

Lemma lists_nodes_unique R P a b : lists_nodes R P a -> lists_nodes R P b -> a = b.
Proof.
  intros [Ha1 Ha2] [Hb1 Hb2]. apply (StronglySorted_unique N.le); [by apply sorted_lt_le|by apply sorted_lt_le|].
  apply NoDup_Permutation.
  - clear -Ha1. induction Ha1 as [|x l Hs IH Hf]; constructor; [|done]. intros Hx. rewrite Forall_forall in Hf. pose proof (Hf x Hx). lia.
  - clear -Hb1. induction Hb1 as [|x l Hs IH Hf]; constructor; [|done]. intros Hx. rewrite Forall_forall in Hf. pose proof (Hf x Hx). lia.
  - intros x. by rewrite Ha2, Hb2.
Qed.
Lemma sorted_lt_NoDup (l : list N) : StronglySorted N.lt l -> NoDup l.
Proof. induction 1 as [|x l Hs IH Hf]; constructor; [|done]. intros Hx. rewrite Forall_forall in Hf. pose proof (Hf x Hx). lia. Qed.
Lemma sorted_le_lt (l : list N) : StronglySorted N.le l -> NoDup l -> StronglySorted N.lt l.
Proof.
  induction 1 as [|x l Hs IH Hf]; intros Hnd; constructor.
  - apply IH. by apply NoDup_cons in Hnd as [_ ?].
  - apply NoDup_cons in Hnd as [Hx _]. apply Forall_forall. intros y Hy. rewrite Forall_forall in Hf. pose proof (Hf y Hy).
    assert (x <> y) by congruence. lia.
Qed.
Lemma valid_sortN n ts : valid_targets n (sortN ts) <-> NoDup ts /\ Forall (fun t => t < n) ts.
Proof.
  split.
  - intros [Hs Hf]. split; [|by rewrite sortN_perm in Hf]. rewrite <- (sortN_perm ts). by apply sorted_lt_NoDup.
  - intros [Hnd Hf]. split; [|by rewrite sortN_perm]. apply sorted_le_lt; [apply sortN_sorted|]. by rewrite sortN_perm.
Qed.
Lemma computed_perm n ts ts' r i : ts ≡ₚ ts' -> computed n ts r i <-> computed n ts' r i.
Proof. intros Hp. unfold computed. by setoid_rewrite Hp. Qed.
Lemma needed_perm n ts ts' r i : ts ≡ₚ ts' -> needed n ts r i <-> needed n ts' r i.
Proof. intros Hp. unfold needed. by rewrite !(computed_perm n ts ts') by done. Qed.
Lemma lists_nodes_ext R P Q ps : (forall r i, P r i <-> Q r i) -> lists_nodes R P ps <-> lists_nodes R Q ps.
Proof. intros Hx. unfold lists_nodes. by setoid_rewrite Hx. Qed.

Lemma C21_lem n R ts : n <= 2 ^ 62 -> is_height n R -> valid_targets n ts ->
  exists P C, ProofPositions n ts = Ok (P, C) /\ lists_nodes R (needed n ts) P /\ lists_nodes R (computed n ts) C.
Proof. intros Hn <-%NumRows_height Hv. by apply ProofPositions_ok. Qed.

Lemma C21_disjoint_lem n R ts P C p : n <= 2 ^ 62 -> is_height n R -> valid_targets n ts ->
  ProofPositions n ts = Ok (P, C) -> p ∈ P -> p ∉ C.
Proof.
  intros Hn <-%NumRows_height Hv E HP HC. destruct (ProofPositions_ok n Hn ts Hv) as (P' & C' & E' & [_ H1] & [_ H2]).
  assert (P = P' /\ C = C') as [-> ->] by (split; congruence).
  apply H1 in HP as (r & i & Hs & -> & _ & _ & Hx). apply H2 in HC as (r' & i' & Hs' & Ee & Hc).
  destruct (enc_inj _ _ _ _ _ Hs Hs' Ee) as [-> ->]. done.
Qed.

Lemma C23_lem n R p : n <= 2 ^ 62 -> is_height n R -> m_sorted_targets p = sortN (m_targets p) ->
  exists b, bp_CheckSanity p n = Ok b /\
    (b = true <-> NoDup (m_targets p) /\ Forall (fun t => t < n) (m_targets p) /\
       exists ps, lists_nodes R (needed n (m_targets p)) ps /\ size (m_proof p) <= size ps).
Proof.
  intros Hn <-%NumRows_height Hs. unfold bp_CheckSanity. rewrite Hs.
  destruct (CheckTargetsSanity_iff n (sortN (m_targets p))) as (b & -> & Hb). rewrite valid_sortN in Hb. cbn [bind]. destruct b; cbn [negb].
  - destruct (proj1 Hb eq_refl) as [Hnd Hf].
    destruct (ProofPositions_ok n Hn (sortN (m_targets p))) as (P & C & -> & HP & _); [by apply valid_sortN|]. cbn [bind fst].
    rewrite (lists_nodes_ext _ _ (needed n (m_targets p))) in HP by (intros r i; apply needed_perm, sortN_perm).
    eexists. split; [done|]. rewrite N.leb_le. split.
    + intros Hle. split; [done|]. split; [done|]. by exists P.
    + intros (_ & _ & ps & Hps & Hle). by rewrite (lists_nodes_unique _ _ _ _ HP Hps).
  - exists false. split; [done|]. split; [done|]. intros (H1 & H2 & _). by apply Hb.
Qed.

(** ** Prove *)
Lemma lookup_all_some (m : gmap N N) hs ts : lookup_all m hs = Some ts <-> Forall2 (fun h t => m !! h = Some t) hs ts.
Proof.
  revert ts. induction hs as [|h hs IH]; intros ts; cbn [lookup_all].
  - split; [intros [= <-]; constructor|]. by inversion 1.
  - destruct (m !! h) as [t|] eqn:Et.
    + destruct (lookup_all m hs) as [ts'|] eqn:E.
      * split; [intros [= <-]; constructor; [done|]; by apply IH|]. inversion 1 as [|? ? ? ? Ha Hb]; simplify_eq. apply IH in Hb. congruence.
      * split; [done|]. inversion 1 as [|? ? ? ? Ha Hb]; simplify_eq. apply IH in Hb. congruence.
    + split; [done|]. inversion 1 as [|? ? ? ? Ha Hb]; by simplify_eq.
Qed.
Lemma lookup_all_none (m : gmap N N) hs : lookup_all m hs = None -> exists h, h ∈ hs /\ m !! h = None.
Proof.
  induction hs as [|h hs IH]; cbn [lookup_all]; [done|]. destruct (m !! h) as [t|] eqn:Et.
  - destruct (lookup_all m hs); [done|]. intros _. destruct (IH eq_refl) as (x & Hx & E). exists x. split; [by right|done].
  - intros _. exists h. split; [left|done].
Qed.
Lemma needed_node n ts r i : needed n ts r i -> node n r i.
Proof.
  intros ([Hnd _] & Hr & _). destruct (decide (node n (r + 1) (sib i / 2))) as [Hx|Hx]; [|by destruct Hr].
  rewrite sib_half in Hx. unfold node in *. rewrite pow_S in Hx. pose proof (pow_pos r). assert (i + 1 <= 2 * (i / 2 + 1)) by dlia. nia.
Qed.

(** A proof has at most as many hashes as there are leaves. *)
Lemma length_by_relation (Q : N -> N -> Prop) n P : NoDup P -> (forall p, p ∈ P -> exists x, x < n /\ Q p x) ->
  (forall p q x, p ∈ P -> q ∈ P -> Q p x -> Q q x -> p = q) -> size P <= n.
Proof.
  intros Hnd Hex Hinj. assert (Hxs : exists xs, Forall2 (λ p x, x < n /\ Q p x) P xs).
  { clear Hnd Hinj. induction P as [|p P IH]; [by exists []|]. destruct IH as [xs Hxs]; [intros; apply Hex; by right|].
    destruct (Hex p ltac:(left)) as (x & Hx). exists (x :: xs). by constructor. }
  destruct Hxs as [xs Hxs]. assert (Hn : NoDup xs).
  { apply NoDup_alt. intros i j x Hi Hj. destruct (Forall2_lookup_r _ _ _ _ _ Hxs Hi) as (p & Hp & _ & Q1).
    destruct (Forall2_lookup_r _ _ _ _ _ Hxs Hj) as (q & Hq & _ & Q2).
    assert (p = q) as <- by (eapply Hinj; [by eapply elem_of_list_lookup_2|by eapply elem_of_list_lookup_2|done|done]). by eapply NoDup_lookup. }
  assert (Hs : xs ⊆+ N.of_nat <$> seq 0 (N.to_nat n)).
  { apply NoDup_submseteq; [done|]. intros x [k Hk]%elem_of_list_lookup. destruct (Forall2_lookup_r _ _ _ _ _ Hxs Hk) as (p & _ & Hx & _).
    apply elem_of_list_fmap. exists (N.to_nat x). rewrite N2Nat.id. split; [done|]. apply elem_of_seq. lia. }
  apply submseteq_length in Hs. rewrite fmap_length, seq_length in Hs. apply Forall2_length in Hxs. unfold size. lia.
Qed.
Lemma needed_apart n ts r i s j : needed n ts r i -> needed n ts s j -> i * 2 ^ r = j * 2 ^ s -> r < s -> False.
Proof.
  intros ((_ & t & Ht & Et) & _) Hj E Hrs. pose proof (needed_node _ _ _ _ Hj) as Hnj. destruct Hj as (_ & _ & Hj). apply Hj. split; [done|]. exists t. split; [done|].
  replace s with (r + 1 + (s - r - 1)) in E |- * by lia. rewrite !N.pow_add_r, N.pow_1_r in *. rewrite <- !N.div_div by (apply N.pow_nonzero || idtac; lia).
  rewrite Et. assert (E2 : sib i / 2 = i / 2).
  { unfold sib. pose proof (N.div_mod i 2 ltac:(lia)). destruct (N.even i) eqn:Ev.
    - apply N.even_spec in Ev as [k ->]. replace (2 * k + 1) with (1 + k * 2) by lia. rewrite N.div_add by lia. rewrite N.mul_comm, N.div_mul by lia. change (1 / 2) with 0. lia.
    - rewrite <- N.negb_odd in Ev. apply negb_false_iff, N.odd_spec in Ev as [k ->]. replace (2 * k + 1 - 1) with (k * 2) by lia. replace (2 * k + 1) with (1 + k * 2) by lia. rewrite N.div_add by lia.
      rewrite N.div_mul by lia. change (1 / 2) with 0. lia. }
  rewrite E2, N.div_div by (apply N.pow_nonzero || idtac; lia). assert (Hi : i = j * (2 * 2 ^ (s - r - 1))).
  { pose proof (N.pow_nonzero 2 r ltac:(lia)). nia. }
  rewrite Hi at 1. apply N.div_mul. pose proof (N.pow_nonzero 2 (s - r - 1) ltac:(lia)). lia.
Qed.
Lemma needed_count n R ts P : lists_nodes R (needed n ts) P -> size P <= n.
Proof.
  intros [Hs HP]. apply (length_by_relation (λ p x, exists r i, p = enc R r i /\ needed n ts r i /\ x = i * 2 ^ r)).
  - by apply sorted_lt_NoDup.
  - intros p (r & i & _ & -> & Hx)%HP. exists (i * 2 ^ r). split; [|by exists r, i]. apply needed_node in Hx. unfold node in Hx.
    pose proof (N.pow_nonzero 2 r ltac:(lia)). lia.
  - intros p q x _ _ (r & i & -> & H1 & ->) (s & j & -> & H2 & E).
    destruct (N.lt_trichotomy r s) as [Hl|[<-|Hl]]; [by destruct (needed_apart n ts r i s j)| |by destruct (needed_apart n ts s j r i)].
    pose proof (N.pow_nonzero 2 r ltac:(lia)). assert (i = j) as <- by (by apply N.mul_cancel_r in E). done.
Qed.

Section Prove.
Context (H : hash -> hash -> hash).

Lemma C06_lem f us ls hs R : reachable H f us -> holds_leaves f ls -> is_height (f_n f) R ->
  (~ (NoDup hs /\ forall h, h ∈ hs -> h ∈ ls) -> F_Prove f hs = Ok None) /\
  (NoDup hs -> (forall h, h ∈ hs -> h ∈ ls) ->
   exists p ps, F_Prove f hs = Ok (Some p) /\ Forall2 (fun h t => t < f_n f /\ F_GetLeaf f t = Ok h) hs (m_targets p) /\
     m_sorted_targets p ≡ₚ m_targets p /\ StronglySorted N.lt (m_sorted_targets p) /\
     lists_nodes R (needed (f_n f) (m_targets p)) ps /\
     Forall2 (fun pos h => exists r i, slot R r i /\ pos = enc R r i /\ h = nh H (leaf_at ls) (N.to_nat r) i) ps (m_proof p)).
Proof.
  intros Hr Hh HR. destruct (reachable_holds H f us ls Hr Hh) as (Hi & Hn & _). pose proof Hh as [Hfn Hg].
  assert (H62 : 2 ^ 31 <= 2 ^ 62) by done. apply NumRows_height in HR as <-.
  assert (Hpm : forall h p, f_posmap f !! h = Some p <-> p < f_n f /\ F_GetLeaf f p = Ok h) by (intros; by apply (C07_lem H f us)).
  assert (Hin : forall h, h ∈ ls <-> is_Some (f_posmap f !! h)).
  { intros h. split.
    - intros [i Hx]%elem_of_list_lookup. assert (Hlt : N.of_nat i < size ls) by (apply lookup_lt_Some in Hx; unfold size; lia).
      exists (N.of_nat i). apply Hpm. rewrite Hfn. split; [done|]. rewrite Hg by done. f_equal. unfold leaf_at. rewrite Nat2N.id.
      by apply list_lookup_total_correct.
    - intros [p [Hp E]%Hpm]. rewrite Hfn in Hp. rewrite Hg in E by done. assert (leaf_at ls p = h) as <- by congruence.
      unfold leaf_at, size in *. apply elem_of_list_lookup_total_2. lia. }
  unfold F_Prove. destruct (lookup_all (f_posmap f) hs) as [ts|] eqn:El.
  2: { split; [done|]. intros _ Hall. apply lookup_all_none in El as (h & Hh' & E). apply Hall, Hin in Hh'. rewrite E in Hh'. by destruct Hh'. }
  apply lookup_all_some in El.
  assert (Hall : forall h, h ∈ hs -> h ∈ ls).
  { intros h Hx. apply Hin. apply elem_of_list_lookup in Hx as [k Hx]. eapply Forall2_lookup_l in El as (t & _ & E); [|done]. by exists t. }
  assert (Hlt : Forall (fun t => t < f_n f) ts).
  { apply Forall_forall. intros t Ht. apply elem_of_list_lookup in Ht as [k Hx]. eapply Forall2_lookup_r in El as (h & _ & E); [|done]. by apply Hpm in E as [? _]. }
  assert (Hnd : NoDup ts <-> NoDup hs).
  { rewrite !NoDup_alt. split; intros Hd i j x Hx Hy.
    - eapply Forall2_lookup_l in El as HA; [|exact Hx]. eapply Forall2_lookup_l in El as HB; [|exact Hy]. destruct HA as (t & Ht & E1), HB as (t' & Ht' & E2).
      assert (t = t') as <- by congruence. by apply (Hd i j t).
    - eapply Forall2_lookup_r in El as HA; [|exact Hx]. eapply Forall2_lookup_r in El as HB; [|exact Hy]. destruct HA as (h & Ht & E1), HB as (h' & Ht' & E2).
      apply Hpm in E1 as [_ E1], E2 as [_ E2]. assert (h = h') as <- by congruence. by apply (Hd i j h). }
  destruct (CheckTargetsSanity_iff (f_n f) (sortN ts)) as (b & -> & Hb). rewrite valid_sortN in Hb. cbn [bind]. destruct b; cbn [negb].
  - split.
    { intros Hx. destruct Hx. split; [|done]. apply Hnd. by apply Hb. }
    intros _ _. destruct (ProofPositions_ok (f_n f) ltac:(lia) (sortN ts)) as (P & C & -> & HP & _); [by apply valid_sortN, Hb|]. cbn [bind fst].
    rewrite (lists_nodes_ext _ _ (needed (f_n f) ts)) in HP by (intros r i; apply needed_perm, sortN_perm).
    pose proof (needed_count _ _ _ _ HP) as Hcnt. assert (Hmax : int_max + 1 = 2 ^ 31) by done. rewrite int_loop_ok by lia. cbn [bind].
    assert (Hread : exists hh, mapM_ (F_Read f) P = Ok hh /\
      Forall2 (fun pos h => exists r i, slot (NumRows (f_n f)) r i /\ pos = enc (NumRows (f_n f)) r i /\ h = nh H (leaf_at ls) (N.to_nat r) i) P hh).
    { destruct HP as [_ HP]. assert (HP' : forall p, p ∈ P -> exists r i, slot (NumRows (f_n f)) r i /\ p = enc (NumRows (f_n f)) r i /\ node (f_n f) r i).
      { intros p (r & i & Hs & E & Hx)%HP. exists r, i. split; [done|]. split; [done|]. by eapply needed_node. }
      clear HP Hcnt. induction P as [|p P IH]; [exists []; split; [done|constructor]|]. destruct IH as (hh & E & HF); [intros; apply HP'; by right|].
      destruct (HP' p ltac:(left)) as (r & i & Hs & -> & Hx). cbn [mapM_]. rewrite Hfn in Hx |- *. rewrite (inv_read H f ls r i Hi ltac:(lia) Hx).
      cbn [bind]. rewrite E. cbn [bind]. eexists. split; [done|]. constructor; [|by rewrite Hfn in HF]. exists r, i. rewrite Hfn in Hs. done. }
    destruct Hread as (hh & -> & HF). cbn [bind]. eexists _, P. split; [done|]. cbn [m_targets m_sorted_targets m_proof BatchProof].
    split; [|split; [apply sortN_perm|split; [|split; [done|done]]]].
    + eapply Forall2_impl; [exact El|]. intros h t E. by apply Hpm.
    + apply sorted_le_lt; [apply sortN_sorted|]. rewrite sortN_perm. by apply Hb.
  - split; [done|]. intros Hx _. assert (false = true); [|done]. apply Hb. split; [by apply Hnd|done].
Qed.

Lemma C10_proofs_lem f g hs : same_forest f g -> f_n f <= 2 ^ 62 -> F_Prove f hs = F_Prove g hs.
Proof.
  intros (En & _ & Ep & Er) Hn. unfold F_Prove. rewrite <- Ep, <- En. destruct (lookup_all _ hs) as [ts|]; [|done].
  destruct (CheckTargetsSanity_iff (f_n f) (sortN ts)) as (b & -> & Hb). cbn [bind]. destruct b; [|done]. cbn [negb].
  destruct (ProofPositions_ok (f_n f) Hn (sortN ts)) as (P & C & -> & [_ HP] & _); [by apply Hb|]. cbn [bind fst].
  assert (HP' : forall p, p ∈ P -> F_Read f p = F_Read g p).
  { intros p (r & i & Hs & -> & Hx)%HP. destruct (Er (NumRows (f_n f)) r i) as (h & -> & ->); [by apply NumRows_height|by eapply needed_node|done]. }
  replace (mapM_ (F_Read g) P) with (mapM_ (F_Read f) P); [done|]. clear HP. induction P as [|p P IH]; [done|]. cbn [mapM_].
  rewrite (HP' p ltac:(left)), IH; [done|]. intros q Hq. apply HP'. by right.
Qed.
End Prove.
