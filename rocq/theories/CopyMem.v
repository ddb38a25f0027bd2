(** Memory accesses in terms of single bytes. *)
From stdpp Require Import sets.
From Verif Require Import Base Ptrs CopyFree CopyFreeSpec.
Local Open Scope Z_scope.

Lemma padd_0 a : padd a 0 = a.
Proof. unfold padd. destruct a. cbn. f_equal. lia. Qed.
Lemma padd_padd a x y : padd (padd a x) y = padd a (x + y).
Proof. unfold padd. cbn. f_equal. lia. Qed.
Lemma inside_padd a s k : inside a s (padd a k) <-> 0 <= k < s.
Proof. unfold inside, padd. cbn. split; [intros [_ ?]; lia|intros ?; split; [done|lia]]. Qed.
Lemma inside_inv a s p : inside a s p -> exists k, 0 <= k < s /\ p = padd a k.
Proof. intros [H1 H2]. exists (snd p - snd a). split; [lia|]. destruct p as [b o], a as [b' o']. unfold padd. cbn in *. f_equal; [done|lia]. Qed.

Lemma rd_cells_inv m a n cs : rd_cells m a n = Some cs ->
  0 <= n /\ Z.of_nat (length cs) = n /\ forall k, (k < length cs)%nat -> cell_at m (padd a (Z.of_nat k)) = cs !! k.
Proof.
  unfold rd_cells, cell_at. cbn [padd fst snd]. destruct (mjoin (m !! a.1)) as [[d l]|]; cbn [mbind option_bind]; [|done].
  destruct ((0 <=? a.2) && (0 <=? n) && (a.2 + n <=? Z.of_nat (length l))) eqn:E; [|done]. intros [= <-].
  rewrite take_length, drop_length. split; [lia|]. split; [lia|]. intros k Hk.
  destruct (Z.leb_spec 0 (a.2 + Z.of_nat k)); [|lia]. rewrite lookup_take by lia. rewrite lookup_drop. f_equal. lia.
Qed.
Lemma cell_bound m b d l o : m !! b = Some (Some (d, l)) -> 0 <= o -> is_Some (cell_at m (b, o)) <-> o < Z.of_nat (length l).
Proof.
  intros E H. unfold cell_at. cbn [fst snd]. rewrite E. cbn. destruct (Z.leb_spec 0 o); [|lia].
  rewrite lookup_lt_is_Some. lia.
Qed.
Lemma cell_at_Some m p c : cell_at m p = Some c -> exists d l, m !! fst p = Some (Some (d, l)) /\ 0 <= snd p < Z.of_nat (length l) /\ l !! Z.to_nat (snd p) = Some c.
Proof.
  unfold cell_at. destruct (m !! p.1) as [[[d l]|]|] eqn:E; cbn; try done. destruct (Z.leb_spec 0 p.2); [|done].
  intros H'. exists d, l. split; [done|]. pose proof (lookup_lt_Some _ _ _ H'). split; [lia|done].
Qed.
Lemma rd_cells_ok m a n : 0 < n -> (forall k, 0 <= k < n -> is_Some (cell_at m (padd a k))) -> exists cs, rd_cells m a n = Some cs.
Proof.
  intros Hn H. destruct (H 0) as [c0 H0]; [lia|]. destruct (H (n - 1)) as [c1 H1]; [lia|].
  apply cell_at_Some in H0 as (d & l & E0 & B0 & _), H1 as (d' & l' & E1 & B1 & _). cbn [padd fst snd] in *.
  unfold rd_cells. rewrite E0 in *. injection E1 as <- <-. cbn.
  destruct ((0 <=? a.2) && (0 <=? n) && (a.2 + n <=? Z.of_nat (length l))) eqn:E; [by eexists|]. lia.
Qed.
Lemma rd_cells_eq m a n cs : 0 < n -> Z.of_nat (length cs) = n -> (forall k, (k < length cs)%nat -> cell_at m (padd a (Z.of_nat k)) = cs !! k) ->
  rd_cells m a n = Some cs.
Proof.
  intros Hn L H. destruct (rd_cells_ok m a n Hn) as [cs' E'].
  { intros k Hk. replace k with (Z.of_nat (Z.to_nat k)) by lia. rewrite H by lia. apply lookup_lt_is_Some. lia. }
  rewrite E'. f_equal. apply rd_cells_inv in E' as (_ & L' & H'). apply list_eq_same_length with (length cs); [done|lia|].
  intros i x y Hi E1 E2. rewrite <- H' in E1 by lia. rewrite <- H in E2 by lia. congruence.
Qed.

Lemma wr_cells_inv m a new m' : wr_cells m a new = Some m' ->
  length m' = length m /\ (forall b, b <> fst a -> m' !! b = m !! b) /\
  (exists d l l', m !! fst a = Some (Some (d, l)) /\ m' !! fst a = Some (Some (d, l')) /\ length l' = length l) /\
  (forall p, inside a (Z.of_nat (length new)) p -> cell_at m' p = new !! Z.to_nat (snd p - snd a)) /\
  (forall p, ~ inside a (Z.of_nat (length new)) p -> cell_at m' p = cell_at m p).
Proof.
  unfold wr_cells. destruct (m !! a.1) as [[[d l]|]|] eqn:E; cbn [mbind option_bind mjoin option_join]; try done.
  destruct ((0 <=? a.2) && (a.2 + Z.of_nat (length new) <=? Z.of_nat (length l))) eqn:G; [|done]. intros [= <-].
  set (o := Z.to_nat a.2). set (l' := take o l ++ new ++ drop (o + length new) l).
  assert (a.1 < length m)%nat as La by (by eapply lookup_lt_Some).
  assert (length l' = length l) as Ll by (unfold l'; rewrite !app_length, take_length, drop_length; lia).
  split; [by rewrite insert_length|]. split; [intros b Hb; by rewrite list_lookup_insert_ne|].
  split; [exists d, l, l'; by rewrite list_lookup_insert by done|]. split.
  - intros p [P1 P2]. unfold cell_at. rewrite P1, list_lookup_insert by done. cbn [mbind option_bind mjoin option_join]. destruct (Z.leb_spec 0 p.2); [|lia].
    unfold l'. rewrite lookup_app_r by (rewrite take_length; lia). rewrite take_length. rewrite lookup_app_l by lia. f_equal. lia.
  - intros p P. unfold cell_at. destruct (decide (p.1 = a.1)) as [P1|P1]; [|by rewrite list_lookup_insert_ne].
    rewrite P1, list_lookup_insert, E by done. cbn [mbind option_bind mjoin option_join]. destruct (Z.leb_spec 0 p.2); [|done]. unfold l'.
    destruct (decide (p.2 < a.2)) as [P2|P2].
    + rewrite lookup_app_l by (rewrite take_length; lia). apply lookup_take. lia.
    + assert (a.2 + Z.of_nat (length new) <= p.2) as P3 by (destruct (decide (a.2 + Z.of_nat (length new) <= p.2)); [done|]; exfalso; apply P; split; [done|lia]).
      rewrite lookup_app_r by (rewrite take_length; lia). rewrite take_length. rewrite lookup_app_r by lia.
      rewrite lookup_drop. f_equal. lia.
Qed.
Lemma wr_cells_ok m a new cs : rd_cells m a (Z.of_nat (length new)) = Some cs -> exists m', wr_cells m a new = Some m'.
Proof.
  unfold rd_cells, wr_cells. destruct (mjoin (m !! a.1)) as [[d l]|]; cbn; [|done].
  destruct ((0 <=? a.2) && (0 <=? Z.of_nat (length new)) && (a.2 + Z.of_nat (length new) <=? Z.of_nat (length l))) eqn:E; [|done]. intros _.
  destruct ((0 <=? a.2) && (a.2 + Z.of_nat (length new) <=? Z.of_nat (length l))) eqn:G; [by eexists|]. lia.
Qed.

(** Pointers *)
Lemma cell_eqb_eq c d : cell_eqb c d = true <-> c = d.
Proof.
  destruct c as [x|p i], d as [y|q j]; cbn; try (split; [done|congruence]).
  - rewrite Z.eqb_eq. split; [by intros ->|congruence].
  - destruct p as [p1 p2], q as [q1 q2]; cbn. destruct (Nat.eqb_spec p1 q1), (Z.eqb_spec p2 q2), (Nat.eqb_spec i j); cbn; split; try done; try congruence.
Qed.
Lemma cells_eqb_eq cs : forall ds, cells_eqb cs ds = true <-> cs = ds.
Proof.
  induction cs as [|c cs IH]; intros [|d ds]; cbn; try done. rewrite andb_true_iff, cell_eqb_eq, IH. split; [by intros [-> ->]|by intros [= -> ->]].
Qed.
Lemma enc_length v : length (enc v) = 8%nat.
Proof. by destruct v. Qed.
Lemma dec_enc v : dec (enc v) = Some v.
Proof. destruct v as [[b o]|]; [|done]. cbn. rewrite Z.eqb_refl, Nat.eqb_refl. done. Qed.
Lemma dec_inv cs v : dec cs = Some v -> cs = enc v.
Proof.
  unfold dec. destruct cs as [|[z|p k] cs]; [done|..].
  - destruct (cells_eqb _ _) eqn:E; [|done]. intros [= <-]. by apply cells_eqb_eq.
  - destruct (cells_eqb _ _) eqn:E; [|done]. intros [= <-]. by apply cells_eqb_eq.
Qed.
Lemma enc_lookup p k : (k < 8)%nat -> enc (Some p) !! k = Some (F p k).
Proof. intros H. cbn [enc]. rewrite list_lookup_fmap. rewrite lookup_seq_lt by done. done. Qed.
Lemma ld_iff m a v : ld m a = Some v <-> forall k, (k < 8)%nat -> cell_at m (padd a (Z.of_nat k)) = enc v !! k.
Proof.
  unfold ld. split.
  - destruct (rd_cells m a 8) as [cs|] eqn:E; [|done]. cbn. intros H. apply dec_inv in H as ->.
    apply rd_cells_inv in E as (_ & _ & E). intros k Hk. apply E. by rewrite enc_length.
  - intros H. rewrite (rd_cells_eq m a 8 (enc v)); [cbn; apply dec_enc|done|by rewrite enc_length|]. rewrite enc_length. done.
Qed.
Lemma ld_agree m m' a v : (forall k, 0 <= k < 8 -> forall c, cell_at m (padd a k) = Some c -> cell_at m' (padd a k) = Some c) ->
  ld m a = Some v -> ld m' a = Some v.
Proof.
  intros H. rewrite !ld_iff. intros L k Hk. rewrite <- L by done. destruct (enc v !! k) as [c|] eqn:E; rewrite <- L in E by done.
  - rewrite E. apply H; [lia|done].
  - rewrite L in E by done. apply lookup_ge_None in E. rewrite enc_length in E. lia.
Qed.

(** Texts *)
Lemma text_cells_inv l cs : text_cells l = Some cs -> exists rest, l = cs ++ rest /\ text_cells cs = Some cs /\ cs <> [] /\ forall c, c ∈ cs -> exists z, c = B z.
Proof.
  revert cs. induction l as [|c l IH]; intros cs H; [done|]. cbn in H. destruct c as [z|]; [|done].
  destruct (decide (z = 0)) as [->|Nz].
  { injection H as <-. exists l. split; [done|]. split; [done|]. split; [done|]. intros c Hc. apply elem_of_list_singleton in Hc as ->. by exists 0. }
  assert ((r ← text_cells l; Some (B z :: r)) = Some cs) as H' by (by destruct z). clear H.
  destruct (text_cells l) as [r|]; [|done]. cbn in H'. injection H' as <-. destruct (IH r eq_refl) as (rest & -> & E & N & A).
  exists rest. split; [done|]. split; [cbn; rewrite E; cbn; by destruct z|]. split; [done|].
  intros c Hc. apply elem_of_cons in Hc as [->|Hc]; [by exists z|by apply A].
Qed.
Lemma text_cells_app cs rest : text_cells cs = Some cs -> text_cells (cs ++ rest) = Some cs.
Proof.
  assert (forall l k rest, text_cells l = Some k -> text_cells (l ++ rest) = Some k) as G; [|apply G].
  clear. induction l as [|c l IH]; intros k rest H; [done|]. cbn in H |- *. destruct c as [z|]; [|done].
  destruct z; [done|..]; destruct (text_cells l) as [r|]; cbn in H; try done; rewrite (IH r rest eq_refl); done.
Qed.
Lemma rd_text_inv m a cs : rd_text m a = Some cs -> cs <> [] /\ text_cells cs = Some cs /\ (forall c, c ∈ cs -> exists z, c = B z) /\
  forall k, (k < length cs)%nat -> cell_at m (padd a (Z.of_nat k)) = cs !! k.
Proof.
  unfold rd_text, cell_at. cbn [padd fst snd]. destruct (mjoin (m !! a.1)) as [[d l]|]; cbn [mbind option_bind]; [|done].
  destruct (Z.leb_spec 0 a.2); [|done]. intros E. apply text_cells_inv in E as (rest & E & T & N & A). split; [done|]. split; [done|]. split; [done|].
  intros k Hk. destruct (Z.leb_spec 0 (a.2 + Z.of_nat k)); [|lia].
  replace (Z.to_nat (a.2 + Z.of_nat k)) with (Z.to_nat a.2 + k)%nat by lia. rewrite <- lookup_drop, E. by apply lookup_app_l.
Qed.
Lemma rd_text_eq m a cs : cs <> [] -> text_cells cs = Some cs ->
  (forall k, (k < length cs)%nat -> cell_at m (padd a (Z.of_nat k)) = cs !! k) -> rd_text m a = Some cs.
Proof.
  intros N T H. assert (0 < length cs)%nat as L by (destruct cs; [done|cbn; lia]).
  assert (rd_cells m a (Z.of_nat (length cs)) = Some cs) as R by (apply rd_cells_eq; [lia|done|done]).
  unfold rd_cells, rd_text in *. destruct (mjoin (m !! a.1)) as [[d l]|]; cbn [mbind option_bind] in *; [|done].
  destruct ((0 <=? a.2) && (0 <=? Z.of_nat (length cs)) && (a.2 + Z.of_nat (length cs) <=? Z.of_nat (length l))) eqn:E; [|done]. injection R as R.
  destruct (Z.leb_spec 0 a.2); [|lia]. rewrite <- (take_drop (length cs) (drop (Z.to_nat a.2) l)). rewrite Nat2Z.id in R. rewrite R. by apply text_cells_app.
Qed.
Lemma rd_text_agree m m' a cs : (forall k, 0 <= k < Z.of_nat (length cs) -> forall c, cell_at m (padd a k) = Some c -> cell_at m' (padd a k) = Some c) ->
  rd_text m a = Some cs -> rd_text m' a = Some cs.
Proof.
  intros H R. apply rd_text_inv in R as (N & T & _ & C). apply rd_text_eq; [done|done|]. intros k Hk.
  destruct (lookup_lt_is_Some_2 cs k Hk) as [c Ec]. rewrite Ec. apply H; [lia|]. by rewrite C.
Qed.

(** Release and allocation *)
Lemma free_ok m b : dynamic m b -> free m (b, 0) = Some (<[b := None]> m).
Proof. intros [cs E]. unfold free. cbn [fst snd]. rewrite E. done. Qed.
Lemma cell_at_app m k p c : cell_at m p = Some c -> cell_at (m ++ k) p = Some c.
Proof.
  intros H. apply cell_at_Some in H as (d & l & E & Bd & L). unfold cell_at. rewrite lookup_app_l by (by eapply lookup_lt_Some). rewrite E. cbn.
  destruct (Z.leb_spec 0 p.2); [done|lia].
Qed.
