(** * ShapeFacts: a deletion moves leaves without looking at them (proofs) *)
From stdpp Require Import sorting.
From Verif Require Import Base StateModel PosSpec PosFacts PathFacts MerkleSpec ForestFacts RowFacts TransformFacts SpecFacts RemoveFacts.
From Coq Require Import ZifyBool ZifyNat ZifyN.
Ltac Zify.zify_post_hook ::= idtac.

Section Shape.
Context (f : hash -> hash).
Definition fc (c : chunk) : chunk := map f c.
Definition cm (c : option chunk) : option chunk := fc <$> c.
Definition pm (p : option chunk * option chunk) : option chunk * option chunk := (cm p.1, cm p.2).

Lemma pair_up_cm (L : list (option chunk)) : pair_up (cm <$> L) = (pm <$> (pair_up L).1, cm <$> (pair_up L).2).
Proof. induction L as [|a|a b L IH] using pair_up_ind; [done|done|]. cbn [fmap list_fmap pair_up fst snd]. by rewrite IH. Qed.
Lemma survivor_cm p : survivor (pm p) = cm (survivor p).
Proof. by destruct p as [[?|] [?|]]. Qed.
Lemma omap_survivor_cm (ps : list (option chunk * option chunk)) : omap survivor (pm <$> ps) = fc <$> omap survivor ps.
Proof.
  induction ps as [|p ps IH]; [done|]. rewrite fmap_cons. change (match survivor (pm p) with Some y => y :: omap survivor (pm <$> ps) | None => omap survivor (pm <$> ps) end = fc <$> match survivor p with Some y => y :: omap survivor ps | None => omap survivor ps end).
  rewrite survivor_cm, IH. by destruct (survivor p).
Qed.
Lemma head_fc (l : list chunk) : head (fc <$> l) = fc <$> head l.
Proof. by destruct l. Qed.
Lemma refill_cm root (ps : list (option chunk * option chunk)) : forall donor, refill donor (cm root) (pm <$> ps) = cm <$> refill donor root ps.
Proof.
  induction ps as [|p ps IH]; intros donor; [done|]. rewrite fmap_cons. cbn [refill]. rewrite survivor_cm, omap_survivor_cm, head_fc.
  destruct p as [[a|] [b|]]; cbn [survivor cm pm fst snd fmap option_fmap option_map].
  - rewrite IH. unfold cm at 2. rewrite fmap_cons. cbn [fmap option_fmap option_map]. unfold fc. by rewrite map_app.
  - destruct donor; rewrite IH, fmap_cons; [done|]. destruct (head (omap survivor ps)) as [d|]; cbn [fmap option_fmap option_map]; [|destruct root as [d|]]; cbn [cm fmap option_fmap option_map]; unfold fc; by rewrite ?map_app.
  - destruct donor; rewrite IH, fmap_cons; [done|]. destruct (head (omap survivor ps)) as [d|]; cbn [fmap option_fmap option_map]; [|destruct root as [d|]]; cbn [cm fmap option_fmap option_map]; unfold fc; by rewrite ?map_app.
  - by rewrite IH, fmap_cons.
Qed.
Lemma row_root_cm (L : list (option chunk)) : row_root (cm <$> L) = cm (row_root L).
Proof. unfold row_root. rewrite pair_up_cm. cbn [snd]. by destruct (pair_up L).2. Qed.
Lemma new_root_cm root (ps : list (option chunk * option chunk)) : new_root (cm root) (pm <$> ps) = cm (new_root root ps).
Proof.
  unfold new_root. rewrite omap_survivor_cm, fmap_length. destruct (Nat.even _); [done|]. destruct root; [done|]. cbn [cm fmap option_fmap option_map]. by rewrite fmap_last.
Qed.
Lemma next_row_cm (L : list (option chunk)) : next_row (cm <$> L) = cm <$> next_row L.
Proof. unfold next_row. rewrite row_root_cm, pair_up_cm. cbn [fst]. apply refill_cm. Qed.
Lemma rowat_cm (L : list (option chunk)) j : rowat (cm <$> L) j = cm <$> rowat L j.
Proof. induction j as [|j IH]; [done|]. by rewrite !rowat_S, IH, next_row_cm. Qed.
Lemma remove_rows_cm k : forall (L : list (option chunk)), remove_rows k (cm <$> L) = f <$> remove_rows k L.
Proof.
  induction k as [|k IH]; intros L; [done|]. cbn [remove_rows]. rewrite next_row_cm, row_root_cm, pair_up_cm. cbn [fst]. rewrite new_root_cm, IH, fmap_app. f_equal.
  by destruct (new_root _ _).
Qed.
Lemma leaf_row_cm (ls : list hash) ts : leaf_row (f <$> ls) ts = cm <$> leaf_row ls ts.
Proof. unfold leaf_row. rewrite imap_fmap, fmap_imap. apply imap_ext. intros i x _. cbn [compose]. by destruct (decide _). Qed.
Lemma spec_remove_fmap (ls : list hash) ts : spec_remove (f <$> ls) ts = f <$> spec_remove ls ts.
Proof. unfold spec_remove. by rewrite fmap_length, leaf_row_cm, remove_rows_cm. Qed.

(** The swaps and the dirty nodes do not depend on the contents. *)
Lemma singles_cm (ps : list (option chunk * option chunk)) : forall m, singles m (pm <$> ps) = singles m ps.
Proof. induction ps as [|p ps IH]; intros m; [done|]. rewrite fmap_cons. cbn [singles]. rewrite IH. by destruct p as [[?|] [?|]]. Qed.
Lemma rps_cm (L : list (option chunk)) : rps (cm <$> L) = pm <$> rps L.
Proof. unfold rps. by rewrite pair_up_cm. Qed.
Lemma rsing_cm (L : list (option chunk)) : rsing (cm <$> L) = rsing L.
Proof. unfold rsing. by rewrite rps_cm, singles_cm. Qed.
Lemma ri_cm (L : list (option chunk)) : ri (cm <$> L) = ri L.
Proof. unfold ri. rewrite rps_cm, pair_up_cm. unfold size. rewrite fmap_length. cbn [snd]. by destruct (pair_up L).2 as [[?|]|]. Qed.
Lemma rsws_cm (L : list (option chunk)) : rsws (cm <$> L) = rsws L.
Proof. unfold rsws. by rewrite rsing_cm, ri_cm. Qed.
Lemma colfrom_cm (L : list (option chunk)) : colfrom (cm <$> L) = colfrom L.
Proof. unfold colfrom. by rewrite rsing_cm, ri_cm. Qed.
Lemma sigma_cm (L : list (option chunk)) y x : sigma (cm <$> L) y x = sigma L y x.
Proof. unfold sigma. by rewrite colfrom_cm, rsws_cm. Qed.
Lemma alive_cm (L : list (option chunk)) : alive (cm <$> L) = alive L.
Proof. induction L as [|c L IH]; [done|]. rewrite fmap_cons, !alive_cons, IH. by destruct c. Qed.
Lemma tailpos_cm k : forall (L : list (option chunk)), tailpos k (cm <$> L) = tailpos k L.
Proof. induction k as [|k IH]; intros L; cbn [tailpos]; [apply alive_cm|]. rewrite next_row_cm, IH, sigma_cm. unfold bit. by rewrite colfrom_cm. Qed.
Lemma Y_cm n (L : list (option chunk)) j : Y n (cm <$> L) j = Y n L j.
Proof. unfold Y. by rewrite rowat_cm, tailpos_cm. Qed.
Lemma newdirt_cm (L : list (option chunk)) j D : newdirt (cm <$> L) j D = newdirt L j D.
Proof. unfold newdirt. by rewrite rowat_cm, rsws_cm. Qed.
Lemma rowsrel_cm H n (L : list (option chunk)) k : forall j g D g', rowsrel H n L k j g D g' -> rowsrel H n (cm <$> L) k j g D g'.
Proof.
  induction k as [|k IH]; intros j g D g' Hr; cbn [rowsrel] in *; [done|]. destruct Hr as (g1 & g2 & D2 & H1 & H2 & H3 & H4 & H5 & H6 & H7). exists g1, g2, D2.
  split; [|split; [done|]].
  - intros r i Hri. rewrite <- (H1 r i Hri). f_equal. unfold lift. by rewrite rowat_cm, Y_cm, sigma_cm.
  - rewrite newdirt_cm. do 4 (split; [done|]). by apply IH.
Qed.
Lemma rowsrel_mc H n (L : list (option chunk)) k : forall j g D g', rowsrel H n (cm <$> L) k j g D g' -> rowsrel H n L k j g D g'.
Proof.
  induction k as [|k IH]; intros j g D g' Hr; cbn [rowsrel] in *; [done|]. destruct Hr as (g1 & g2 & D2 & H1 & H2 & H3 & H4 & H5 & H6 & H7). exists g1, g2, D2.
  rewrite newdirt_cm in *. split; [|split; [done|do 4 (split; [done|]); by apply IH]].
  intros r i Hri. rewrite <- (H1 r i Hri). f_equal. unfold lift. by rewrite rowat_cm, Y_cm, sigma_cm.
Qed.
End Shape.
