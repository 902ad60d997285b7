(** * TotalFacts: the position functions on arbitrary target lists

    The functions of state.cpp that take target lists are called with numbers from
    outside.  Nothing is assumed of the lists here. *)
From Verif Require Import Base StateModel PosSpec PosFacts.

Definition is_ok {A} (m : res A) : Prop := exists a, m = Ok a.

Lemma is_ok_Ok {A} (a : A) : is_ok (Ok a). Proof. by exists a. Qed.
Lemma is_ok_bind {A B} (m : res A) (k : A -> res B) : is_ok m -> (forall a, m = Ok a -> is_ok (k a)) -> is_ok (bind m k).
Proof. intros (a & Ha) Hk. rewrite Ha. exact (Hk a Ha). Qed.
Lemma is_ok_if {A} (b : bool) (x y : res A) : is_ok x -> is_ok y -> is_ok (if b then x else y).
Proof. by destruct b. Qed.

Ltac okstep := first [apply is_ok_Ok | apply is_ok_bind; [|intros ? ?]].

Lemma shl64_is_ok x k : k < 64 -> is_ok (shl64 x k).
Proof. intros Hk. rewrite shl64_ok by done. apply is_ok_Ok. Qed.
Lemma shr64_is_ok x k : k < 64 -> is_ok (shr64 x k).
Proof. intros Hk. rewrite shr64_ok by done. apply is_ok_Ok. Qed.
Lemma int_sub_inv a b c : int_sub a b = Ok c -> c = a - b.
Proof. unfold int_sub. destruct (b <=? a); congruence. Qed.
Lemma int_sub_is_ok a b : b <= a -> is_ok (int_sub a b).
Proof. intros Hb. unfold int_sub. rewrite (proj2 (N.leb_le b a) Hb). apply is_ok_Ok. Qed.

Section Total.
Context (n : N) (Hn : n <= 2 ^ 62).
Local Notation R := (NumRows n).

Lemma R62 : R <= 62.
Proof. by apply NumRows_le. Qed.

Lemma MaxNodes_is_ok : is_ok (MaxNodes n).
Proof. pose proof R62. unfold MaxNodes. okstep; [apply shl64_is_ok; lia|]. okstep. Qed.
Lemma Parent_is_ok pos : is_ok (Parent n pos).
Proof. pose proof R62. unfold Parent. okstep; [apply shl64_is_ok; lia|]. okstep. Qed.
Lemma Ancestor_is_ok pos k : k <= R -> is_ok (Ancestor n pos k).
Proof.
  intros Hk. pose proof R62. unfold Ancestor. apply is_ok_if; [okstep|].
  okstep; [apply MaxNodes_is_ok|]. okstep; [apply shr64_is_ok; lia|]. okstep; [apply int_sub_is_ok; lia|].
  match goal with E : int_sub _ _ = Ok _ |- _ => apply int_sub_inv in E; subst end.
  okstep; [apply shl64_is_ok; lia|]. okstep.
Qed.
Lemma HasRoot_is_ok m row : row < 64 -> is_ok (HasRoot m row).
Proof. intros Hr. unfold HasRoot. okstep; [by apply shr64_is_ok|]. okstep. Qed.
Lemma root_position_is_ok row m : row <= R -> is_ok (root_position row m R).
Proof.
  intros Hr. pose proof R62. unfold root_position. okstep; [apply shl64_is_ok; lia|].
  okstep; [apply shl64_is_ok; lia|]. okstep; [apply shr64_is_ok; lia|]. okstep; [apply int_sub_is_ok; lia|].
  match goal with E : int_sub _ _ = Ok _ |- _ => apply int_sub_inv in E; subst end.
  destruct (N.eq_dec row 0) as [->|Hr0].
  - rewrite N.sub_0_r. okstep; [apply shl64_is_ok; lia|]. okstep.
  - okstep; [apply shl64_is_ok; lia|]. okstep.
Qed.

Lemma root_positions_from_is_ok m k : N.of_nat k <= R -> is_ok (root_positions_from k m R).
Proof.
  pose proof R62. induction k as [|k IH]; intros Hk; cbn [root_positions_from].
  - okstep; [|okstep]. okstep; [apply HasRoot_is_ok; lia|]. apply is_ok_if; [|okstep].
    okstep; [by apply root_position_is_ok|]. okstep.
  - okstep; [|okstep; [apply IH; lia|okstep]]. okstep; [apply HasRoot_is_ok; lia|]. apply is_ok_if; [|okstep].
    okstep; [by apply root_position_is_ok|]. okstep.
Qed.
Lemma RootPositions_total m : is_ok (RootPositionsFor n m).
Proof. unfold RootPositionsFor. apply is_ok_if; [|okstep]. apply root_positions_from_is_ok. lia. Qed.

(** ** ProofPositions *)
Lemma pp_case_is_ok ts : ts <> [] -> exists pr nx k, pp_case n ts = Ok (pr, nx, k) /\ (1 <= k)%nat.
Proof.
  intros Hts. unfold pp_case.
  assert (HP : forall pos, exists q, Parent n pos = Ok q) by apply Parent_is_ok.
  destruct ts as [|t0 [|t1 [|t2 [|t3 ts]]]]; [done|..];
    repeat match goal with
      | |- context [if ?b then _ else _] => destruct b
      | |- context [Parent n ?t] => destruct (HP t) as (? & E); rewrite E; clear E; cbn [bind]
      end; do 3 eexists; (split; [reflexivity|lia]).
Qed.
Lemma pp_scan_is_ok fuel : forall ts, (length ts <= fuel)%nat -> is_ok (pp_scan fuel n ts).
Proof.
  induction fuel as [|fuel IH]; intros ts Hl; (destruct ts as [|t ts]; cbn [pp_scan]; [okstep|]); [cbn in Hl; lia|].
  destruct (pp_case_is_ok (t :: ts)) as (pr & nx & k & E & Hk); [done|]. rewrite E. cbn [bind].
  okstep; [|okstep]. apply IH. rewrite drop_length. cbn [length] in *. lia.
Qed.
Lemma pp_strip_is_ok row ts : row <= R -> is_ok (pp_strip_root n row ts).
Proof.
  intros Hr. pose proof R62. unfold pp_strip_root. okstep; [apply HasRoot_is_ok; lia|]. apply is_ok_if; [|okstep].
  destruct (last ts); [|okstep]. okstep; [by apply root_position_is_ok|]. okstep.
Qed.
Lemma pp_rows_is_ok k : forall row ts, row + N.of_nat k <= R + 1 -> is_ok (pp_rows k row n ts).
Proof.
  induction k as [|k IH]; intros row ts Hk; cbn [pp_rows]; [okstep|].
  okstep; [apply pp_strip_is_ok; lia|]. okstep; [apply pp_scan_is_ok; lia|]. okstep; [apply IH; lia|]. okstep.
Qed.
Lemma ProofPositions_is_ok ts : is_ok (ProofPositions n ts).
Proof. unfold ProofPositions. apply pp_rows_is_ok. lia. Qed.

Lemma CheckTargetsSanity_is_ok ts : is_ok (CheckTargetsSanity n ts).
Proof.
  unfold CheckTargetsSanity, IsSortedNoDupes. destruct ts as [|t ts]; [okstep|].
  apply is_ok_if; [okstep|]. cbn [bind]. apply is_ok_if; [okstep|]. okstep; [|okstep].
  unfold vec_back. destruct (last (t :: ts)) eqn:E; [okstep|]. apply last_None in E. done.
Qed.

(** ** Transform *)
Lemma cnrt_is_ok : forall k ts singles, (length ts <= k)%nat -> exists ps ws, cnrt_loop n ts singles = Ok (ps, ws) /\ Nat.even (length ws) = Nat.even (length ts).
Proof.
  induction k as [|k IH]; intros ts singles Hl.
  { destruct ts; [|cbn in Hl; lia]. by exists [], []. }
  assert (HP : forall pos, exists q, Parent n pos = Ok q) by apply Parent_is_ok.
  assert (Hev : forall a b, Nat.even a = Nat.even b -> Nat.even (S a) = Nat.even (S b)).
  { intros a b E. rewrite !Nat.even_succ, <- !Nat.negb_even. by rewrite E. }
  destruct ts as [|t0 r1]; [by exists [], []|]. cbn [cnrt_loop]. cbn [length] in Hl.
  assert (Hlone : exists ps ws, (let* rest := cnrt_loop n r1 (S singles) in
        if Nat.even (S singles) then
          let* p := Parent n t0 in Ok (p :: rest.1, t0 :: rest.2)
        else Ok (rest.1, t0 :: rest.2)) = Ok (ps, ws) /\ Nat.even (length ws) = Nat.even (S (length r1))).
  { destruct (IH r1 (S singles)) as (ps & ws & E & Hpar); [lia|]. rewrite E. cbn [bind fst snd].
    destruct (Nat.even (S singles)).
    - destruct (HP t0) as (q & Eq). rewrite Eq. cbn [bind]. eexists _, _. split; [reflexivity|]. cbn [length]. by apply Hev.
    - eexists _, _. split; [reflexivity|]. cbn [length]. by apply Hev. }
  destruct r1 as [|t1 r2]; [exact Hlone|]. destruct (RightSibling t0 =? t1); [|exact Hlone].
  destruct (HP t0) as (q & Eq). rewrite Eq. cbn [bind].
  destruct (IH r2 singles) as (ps & ws & E & Hpar); [cbn [length] in Hl; lia|]. rewrite E. cbn [bind fst snd].
  eexists _, _. split; [reflexivity|]. rewrite Hpar. cbn [length]. by rewrite !Nat.even_succ_succ.
Qed.
Lemma odd_last {A} (l : list A) : Nat.odd (length l) = true -> exists x, last l = Some x.
Proof. destruct (last l) eqn:E; [by eexists|]. apply last_None in E. by subst. Qed.

Lemma CNRT_is_ok ts rp : exists ps ws, ComputeNextRowTargets n ts (Nat.odd (length ts)) rp = Ok (ps, ws) /\ Nat.odd (length ws) = Nat.odd (length ts).
Proof.
  unfold ComputeNextRowTargets. destruct (cnrt_is_ok (length ts) ts 0) as (ps & ws & E & Hpar); [lia|]. rewrite E. cbn [bind fst snd].
  assert (Hodd : Nat.odd (length ws) = Nat.odd (length ts)) by (rewrite <- !Nat.negb_even; by rewrite Hpar).
  destruct (Nat.odd (length ts)) eqn:Eo; cbn [andb negb]; [|by eexists _, _].
  destruct rp; cbn [negb]; [by eexists _, _|].
  unfold vec_back. destruct (odd_last ws Hodd) as (x & ->). cbn [bind].
  destruct (Parent_is_ok x) as (q & ->). cbn [bind]. by eexists _, _.
Qed.

Lemma make_swaps_rest : forall k ts, (length ts <= k)%nat -> Nat.odd (length ts) = true -> (make_swaps_loop ts).2 <> [].
Proof.
  induction k as [|k IH]; intros ts Hl Ho; (destruct ts as [|t0 [|t1 ts]]; [done|done|]).
  - cbn in Hl; lia.
  - cbn [make_swaps_loop]. specialize (IH ts). destruct (make_swaps_loop ts) as [ss rest]. cbn [snd] in *.
    apply IH; [cbn [length] in Hl; lia|]. cbn [length] in Ho. by rewrite Nat.odd_succ_succ in Ho.
Qed.
Lemma MakeSwaps_is_ok ts rp pos : is_ok (MakeSwaps ts (Nat.odd (length ts)) rp pos).
Proof.
  unfold MakeSwaps. pose proof (make_swaps_rest (length ts) ts (Nat.le_refl _)) as Hr.
  destruct (make_swaps_loop ts) as [ss rest]. cbn [snd] in Hr. destruct (Nat.odd (length ts)); cbn [andb]; [|okstep].
  destruct rp; [|okstep]. destruct rest; [by destruct Hr|]. okstep.
Qed.
Lemma MakeCollapse_is_ok ts rp row m : row <= R -> is_ok (MakeCollapse n ts (Nat.odd (length ts)) rp row m).
Proof.
  intros Hr. unfold MakeCollapse. okstep; [by apply root_position_is_ok|].
  apply is_ok_if; [okstep; [by apply root_position_is_ok|okstep]|].
  pose proof (odd_last ts) as Hl. destruct (Nat.odd (length ts)); cbn [andb negb]; [|okstep].
  apply is_ok_if; [|okstep]. destruct (Hl eq_refl) as (x & ->). okstep.
Qed.

Lemma transform_rows_is_ok m k : forall row cur, row + N.of_nat k <= R ->
  exists ss cs, transform_rows k row n m cur = Ok (ss, cs) /\ length ss = length cs /\ (length cs <= k)%nat.
Proof.
  pose proof R62. induction k as [|k IH]; intros row cur Hk; cbn [transform_rows].
  { exists [], []. repeat split; cbn; lia. }
  destruct cur as [|x cur']; [exists [], []; repeat split; cbn; lia|].
  remember (x :: cur') as cur eqn:Hcur.
  destruct (HasRoot_is_ok n row) as (rp & Erp); [lia|]. rewrite Erp. cbn [bind].
  destruct (root_position_is_ok row n) as (pos & Epos); [lia|]. fold (RootPosition n row) in Epos. rewrite Epos. cbn [bind].
  assert (Hb : exists b, vec_back cur = Ok b).
  { unfold vec_back. destruct (last cur) eqn:E; [by eexists|]. apply last_None in E. by subst. }
  destruct Hb as (b & ->). cbn [bind].
  set (popped := rp && (b =? pos)). set (cur2 := if popped then removelast cur else cur). set (rp2 := if popped then false else rp).
  destruct (CNRT_is_ok cur2 rp2) as (ps & ws & Ec & Ho). rewrite Ec. cbn [bind fst snd]. rewrite <- Ho.
  destruct (MakeSwaps_is_ok ws rp2 pos) as (sw & ->). cbn [bind].
  destruct (MakeCollapse_is_ok ws rp2 row m) as (c & ->); [lia|]. cbn [bind].
  destruct (IH (row + 1) (sortN ps)) as (ss & cs & E & Hlen & Hle); [lia|]. rewrite E. cbn [bind fst snd].
  eexists _, _. split; [reflexivity|]. cbn [length]. lia.
Qed.

Lemma SwapIfDescendant_is_ok s c sr cr : sr <= R -> is_ok (SwapIfDescendant n s c sr cr).
Proof.
  intros Hr. pose proof R62. unfold SwapIfDescendant. okstep; [apply Ancestor_is_ok; lia|]. apply is_ok_if; [|okstep].
  okstep; [apply shl64_is_ok; lia|]. okstep.
Qed.
Lemma SwapInRow_is_ok s sr : sr <= R -> forall cs crow, sr <= crow + size cs ->
  exists cs', SwapInRow n s cs crow sr = Ok cs' /\ length cs' = length cs.
Proof.
  intros Hr. induction cs as [|c cs IH]; intros crow Hs; cbn [SwapInRow].
  - unfold size in Hs; cbn in Hs. rewrite (proj2 (N.ltb_ge crow sr)) by lia. by exists [].
  - destruct (crow <? sr); [|by exists (c :: cs)].
    assert (Hc : exists c', (if m_collapse c then SwapIfDescendant n s c sr crow else Ok c) = Ok c').
    { destruct (m_collapse c); [by apply SwapIfDescendant_is_ok|by eexists]. }
    destruct Hc as (c' & ->). cbn [bind]. destruct (IH (crow + 1)) as (cs' & -> & Hl).
    { unfold size in *; cbn [length] in Hs; lia. }
    cbn [bind]. eexists. split; [reflexivity|]. cbn [length]. by rewrite Hl.
Qed.
Lemma foldM_SwapInRow_is_ok sr : sr <= R -> forall ss cs, sr <= size cs ->
  exists cs', foldM (fun cs s => SwapInRow n s cs 0 sr) cs ss = Ok cs' /\ length cs' = length cs.
Proof.
  intros Hr. induction ss as [|s ss IH]; intros cs Hs; cbn [foldM]; [by exists cs|].
  destruct (SwapInRow_is_ok s sr Hr cs 0) as (cs1 & -> & Hl1); [lia|]. cbn [bind].
  destruct (IH cs1) as (cs2 & -> & Hl2); [unfold size in *; lia|]. exists cs2. split; [done|]. lia.
Qed.
Lemma vec_at_is_ok {A} (l : list A) i : (N.to_nat i < length l)%nat -> is_ok (vec_at l i).
Proof. intros Hi. unfold vec_at. destruct (lookup_lt_is_Some_2 l (N.to_nat i) Hi) as (x & ->). apply is_ok_Ok. Qed.
Lemma convert_rows_is_ok ss : forall row cs, length ss = length cs -> (row = 0 \/ row < length cs)%nat -> N.of_nat (length cs) <= R ->
  exists cs', convert_rows row n ss cs = Ok cs' /\ length cs' = length cs.
Proof.
  induction row as [|row IH]; intros cs Hlen Hrow HR; cbn [convert_rows]; [by exists cs|].
  destruct (vec_at_is_ok ss (N.of_nat (S row))) as (sw & ->); [lia|]. cbn [bind].
  destruct (foldM_SwapInRow_is_ok (N.of_nat (S row)) ltac:(lia) sw cs) as (cs1 & -> & Hl1); [unfold size; lia|]. cbn [bind].
  destruct (vec_at_is_ok cs1 (N.of_nat (S row))) as (c & ->); [lia|]. cbn [bind].
  assert (Hc : exists cs2, (if m_collapse c then SwapInRow n c cs1 0 (N.of_nat (S row)) else Ok cs1) = Ok cs2 /\ length cs2 = length cs).
  { destruct (m_collapse c); [|by eexists]. destruct (SwapInRow_is_ok c (N.of_nat (S row)) ltac:(lia) cs1 0) as (cs2 & -> & Hl2); [unfold size; lia|].
    eexists. split; [done|]. lia. }
  destruct Hc as (cs2 & -> & Hl2). cbn [bind]. destruct (IH cs2) as (cs3 & -> & Hl3); [lia..|]. exists cs3. split; [done|lia].
Qed.
Lemma append_collapses_is_ok : forall cs ss, length ss = length cs -> is_ok (append_collapses ss cs).
Proof.
  induction cs as [|c cs IH]; intros ss Hlen; cbn [append_collapses]; [okstep|].
  destruct ss as [|s ss]; [done|]. okstep; [|okstep]. apply IH. by injection Hlen.
Qed.
Lemma Transform_is_ok ts : is_ok (Transform n ts).
Proof.
  unfold Transform. destruct (transform_rows_is_ok (sub64 n (size ts)) (N.to_nat R) 0 ts) as (ss & cs & -> & Hlen & Hle); [lia|].
  cbn [bind fst snd]. unfold ConvertCollapses. destruct cs as [|c cs]; [okstep|].
  destruct (convert_rows_is_ok ss (length (c :: cs) - 1) (c :: cs)) as (cs' & -> & Hl); [done|cbn [length]; lia|lia|].
  cbn [bind]. apply append_collapses_is_ok. lia.
Qed.

(** ** UndoTransform *)
Lemma detect_loop_is_ok pos : forall k fuel row, (S k <= fuel)%nat -> exists r, detect_loop fuel pos (2 ^ N.of_nat k) row = Ok r /\ r <= row + N.of_nat k + 1.
Proof.
  induction k as [|k IH]; intros fuel row Hf; (destruct fuel as [|fuel]; [lia|]); cbn [detect_loop].
  - destruct (N.land _ _ =? 0); [eexists; split; [done|lia]|]. change (N.shiftr (2 ^ N.of_nat 0) 1) with 0.
    destruct fuel; cbn [detect_loop]; rewrite N.land_0_r; change (0 =? 0) with true; cbn iota; (eexists; split; [done|lia]).
  - destruct (N.land _ _ =? 0); [eexists; split; [done|lia]|].
    replace (N.shiftr (2 ^ N.of_nat (S k)) 1) with (2 ^ N.of_nat k).
    + destruct (IH fuel (row + 1)) as (r & -> & Hr); [lia|]. eexists. split; [done|lia].
    + rewrite Nat2N.inj_succ, N.pow_succ_r', N.shiftr_div_pow2, N.pow_1_r, N.mul_comm, N.div_mul; [done|lia].
Qed.
Lemma DetectRow_is_ok pos : exists r, DetectRow n pos = Ok r /\ r <= R + 1.
Proof.
  pose proof R62. unfold DetectRow. rewrite shl64_ok by lia. cbn [bind]. rewrite N.mul_1_l.
  assert (Hw : w64 (2 ^ R) = 2 ^ R).
  { unfold w64. apply N.mod_small. change two64 with (2 ^ 64). apply N.pow_lt_mono_r; lia. }
  rewrite Hw. assert (E2 : 2 ^ R = 2 ^ N.of_nat (N.to_nat R)) by (by rewrite N2Nat.id). rewrite E2. destruct (detect_loop_is_ok pos (N.to_nat R) 64 0) as (r & E & Hr); [lia|].
  exists r. split; [exact E|lia].
Qed.
Lemma ToLeaves_is_ok s : is_ok (ToLeaves n s).
Proof.
  pose proof R62. unfold ToLeaves. destruct (DetectRow_is_ok (m_from s)) as (r & -> & Hr). cbn [bind]. apply is_ok_if; [okstep|].
  assert (HL : forall pos, is_ok (LeftDescendant n pos r)).
  { intros pos. unfold LeftDescendant. apply is_ok_if; [okstep|]. okstep; [apply MaxNodes_is_ok|]. okstep; [apply shl64_is_ok; lia|]. okstep. }
  okstep; [apply HL|]. okstep; [apply HL|]. okstep; [apply shl64_is_ok; lia|]. okstep.
Qed.
Lemma mapM_is_ok {A B} (f : A -> res B) l : (forall x, is_ok (f x)) -> is_ok (mapM_ f l).
Proof. intros Hf. induction l as [|x l IH]; cbn [mapM_]; [okstep|]. okstep; [apply Hf|]. okstep; [exact IH|]. okstep. Qed.
Lemma UndoTransform_is_ok ts : is_ok (UndoTransform n ts).
Proof. unfold UndoTransform. okstep; [apply Transform_is_ok|]. apply mapM_is_ok. exact ToLeaves_is_ok. Qed.
End Total.
