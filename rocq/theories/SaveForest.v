(** Forests with nodes that change their place (src/metaresc.c:624-666 as used by
    src/mr_save.c:610-636, 1051). *)
From stdpp Require Import sets.
From Verif Require Import Base Ptrs ChildrenProof.

Definition parf (ns : list node) (i : nat) : nat := match ns !! i with Some n => parent n | None => 0 end.

(** Depth of a node. *)
Inductive lev (par : nat -> nat) : nat -> nat -> Prop :=
  | lev0 i : par i = 0 -> lev par i 0
  | levS i k : par i <> 0 -> lev par (par i) k -> lev par i (S k).

Lemma lev_fun par i k : lev par i k -> forall k', lev par i k' -> k = k'.
Proof.
  induction 1 as [i E|i k N L IH]; intros k' L'; inversion L'; subst; try congruence. f_equal. auto.
Qed.
Lemma anc_lev par x y : anc par x y -> forall k, lev par x k -> exists k', lev par y k' /\ k' <= k /\ (k' = k -> x = y).
Proof.
  induction 1 as [x|x y N A IH]; intros k L; [eauto|]. inversion L as [|? k1 ? L1]; subst; [done|].
  destruct (IH _ L1) as (k' & ? & ? & ?). exists k'. split; [done|]. split; [lia|]. intros ->. lia.
Qed.
Lemma anc_antisym par x y k : lev par x k -> anc par x y -> anc par y x -> x = y.
Proof.
  intros L A B. destruct (anc_lev _ _ _ A _ L) as (k' & L' & ? & E). destruct (anc_lev _ _ _ B _ L') as (k2 & L2 & ? & _).
  pose proof (lev_fun _ _ _ L _ L2). apply E. lia.
Qed.
Lemma lev_path par i k : lev par i k -> exists l, length l = S k /\ NoDup l /\ (forall y, y ∈ l -> anc par i y).
Proof.
  induction 1 as [i E|i k N L (l & Hl & Nd & Ha)].
  - exists [i]. split; [done|]. split; [apply NoDup_singleton|]. intros y ->%elem_of_list_singleton. constructor.
  - exists (i :: l). split; [cbn; lia|]. split.
    + constructor; [|done]. intros Hi. apply Ha in Hi. destruct (anc_lev _ _ _ Hi _ L) as (k' & L' & ? & _).
      pose proof (lev_fun _ _ _ (levS _ _ _ N L) _ L'). lia.
    + intros y [->|Hy]%elem_of_cons; [constructor|]. apply anc_up; auto.
Qed.

(** [K p] lists the children of [p]; references have none. *)
Record forest_ok (ns : list node) (K : nat -> list nat) : Prop := {
  fo_len : 1 <= length ns;
  fo_zero : exists n, ns !! 0 = Some n /\ parent n = 0 /\ next n = 0 /\ first_child n = 0 /\ is_ref n = false;
  fo_par : forall i n, ns !! i = Some n -> parent n < length ns;
  fo_kids : forall i n, ns !! i = Some n -> if is_ref n then K i = [] else linked ns (first_child n) (K i);
  fo_in : forall p c, c ∈ K p <-> c <> 0 /\ c < length ns /\ p <> 0 /\ parf ns c = p;
  fo_nodup : forall p, NoDup (K p);
  fo_lev : forall i, i <> 0 -> i < length ns -> exists k, lev (parf ns) i k;
  fo_root : forall i n, i <> 0 -> ns !! i = Some n -> parent n = 0 -> i = 1 /\ next n = 0 }.

Lemma parf_lu ns i n : ns !! i = Some n -> parf ns i = parent n.
Proof. intros E. unfold parf. by rewrite E. Qed.

Section Forest.
  Context (ns : list node) (K : nat -> list nat) (R : forest_ok ns K).

  Lemma parf_lt i : parf ns i < length ns.
  Proof. unfold parf. destruct (ns !! i) eqn:E; [by eapply fo_par|]. pose proof (fo_len _ _ R). lia. Qed.
  Lemma parf_zero : parf ns 0 = 0.
  Proof. destruct (fo_zero _ _ R) as (n & E & P & _). by rewrite (parf_lu _ _ _ E). Qed.
  Lemma anc_in i y : anc (parf ns) i y -> i <> 0 -> i < length ns -> y <> 0 /\ y < length ns.
  Proof. induction 1 as [|x y N A IH]; [done|]. intros. apply IH; [done|]. apply parf_lt. Qed.
  Lemma anc_of_zero y : anc (parf ns) 0 y -> y = 0.
  Proof. intros A. inversion A; subst; [done|]. by rewrite parf_zero in *. Qed.
  Lemma lev_bound i k : i <> 0 -> i < length ns -> lev (parf ns) i k -> S k < length ns.
  Proof.
    intros I L H. destruct (lev_path _ _ _ H) as (l & Hl & Nd & Ha).
    assert (length (0 :: l) <= length ns) as B.
    { apply nodup_bounded.
      - constructor; [|done]. intros H0%Ha. destruct (anc_in _ _ H0); lia.
      - constructor; [pose proof (fo_len _ _ R); lia|]. apply Forall_forall. intros y Hy%Ha. by destruct (anc_in _ _ Hy). }
    cbn in B. lia.
  Qed.
  Lemma fo_depth i : i < length ns -> exists k, lev (parf ns) i k /\ S k <= length ns.
  Proof.
    intros L. destruct (Nat.eq_dec i 0) as [->|N].
    - exists 0. split; [constructor; apply parf_zero|]. pose proof (fo_len _ _ R). lia.
    - destruct (fo_lev _ _ R i N L) as (k & Hk). exists k. split; [done|]. pose proof (lev_bound _ _ N L Hk). lia.
  Qed.
  Lemma kid_lt p c : c ∈ K p -> c <> 0 /\ c < length ns /\ p <> 0 /\ p < length ns /\ parf ns c = p.
  Proof. intros H. apply (fo_in _ _ R) in H as (? & ? & ? & <-). pose proof (parf_lt c). repeat split; try done. Qed.
  Lemma kid_anc p c : c ∈ K p -> anc (parf ns) c p.
  Proof. intros (? & ? & ? & ? & E)%kid_lt. rewrite <- E. apply anc_up; [lia|constructor]. Qed.
  Lemma kid_not_anc p c : c ∈ K p -> ~ anc (parf ns) p c.
  Proof.
    intros H A. pose proof (kid_anc _ _ H) as B. destruct (kid_lt _ _ H) as (? & ? & ? & ? & E).
    destruct (fo_lev _ _ R p) as (k & L); [done..|]. pose proof (anc_antisym _ _ _ _ L A B) as ->.
    inversion L as [|? k1 ? L1]; subst; [congruence|]. rewrite E in L1. pose proof (lev_fun _ _ _ L _ L1). lia.
  Qed.
  (** The child of [p] on the way up. *)
  Lemma anc_step i p : anc (parf ns) i p -> i <> p -> i <> 0 -> i < length ns -> p <> 0 ->
    exists c, c ∈ K p /\ anc (parf ns) i c.
  Proof.
    induction 1 as [|x y N A IH]; [done|]. intros Ne X L Y. destruct (Nat.eq_dec (parf ns x) y) as [<-|Np].
    - exists x. split; [|constructor]. apply (fo_in _ _ R). done.
    - destruct IH as (c & ? & ?); [done|done|apply parf_lt|done|]. exists c. split; [done|]. by apply anc_up.
  Qed.
  Lemma anc_kid_unique i x y p : anc (parf ns) i x -> anc (parf ns) i y -> x ∈ K p -> y ∈ K p -> x = y.
  Proof.
    intros A B X Y. destruct (kid_lt _ _ X) as (? & ? & ? & ? & Ex). destruct (kid_lt _ _ Y) as (? & ? & ? & ? & Ey).
    assert (forall u v, anc (parf ns) u v -> u ∈ K p -> v ∈ K p -> u = v) as G.
    { intros u v C U V. inversion C as [|? ? N C']; subst; [done|]. exfalso. eapply (kid_not_anc _ _ V).
      destruct (kid_lt _ _ U) as (? & ? & ? & ? & <-). done. }
    destruct (anc_total _ _ _ _ A B) as [C|C]; [by apply G|symmetry; by apply G].
  Qed.
  Lemma anc_root i : i <> 0 -> i < length ns -> anc (parf ns) i 1.
  Proof.
    intros I L. destruct (fo_lev _ _ R i I L) as (k & Hk). revert I L. induction Hk as [i E|i k N H IH]; intros I L.
    - destruct (lookup_lt_is_Some_2 ns i L) as [n En]. rewrite (parf_lu _ _ _ En) in E.
      destruct (fo_root _ _ R i n I En E) as [-> _]. constructor.
    - apply anc_up; [done|]. apply IH; [done|]. apply parf_lt.
  Qed.
End Forest.

(** ** mr_add_child *)
Lemma climb_lev ns p : forall c k fuel, lev (parf ns) c k -> S k < fuel -> p <> 0 ->
  (forall y, anc (parf ns) c y -> y < length ns /\ y <> 0) ->
  exists x, climb_to fuel ns p c = Some x /\
    (x = 0 /\ (forall y, anc (parf ns) c y -> parf ns y <> p) \/
     x <> 0 /\ anc (parf ns) c x /\ parf ns x = p).
Proof.
  intros c k fuel H. revert fuel. induction H as [c E|c k N H IH]; intros fuel F P Hr.
  - destruct fuel as [|[|fuel]]; [lia..|]. destruct (Hr c) as [Lc Zc]; [constructor|].
    destruct (lookup_lt_is_Some_2 ns c Lc) as [n En]. cbn. destruct (Nat.eqb_spec c 0); [done|].
    rewrite (rd_lu _ _ _ En). cbn. rewrite (parf_lu _ _ _ En) in E. rewrite E.
    destruct (Nat.eqb_spec 0 p); [done|]. exists 0. split; [done|]. left. split; [done|].
    intros y A. inversion A; subst; rewrite (parf_lu _ _ _ En) in *; congruence.
  - destruct fuel as [|fuel]; [lia|]. destruct (Hr c) as [Lc Zc]; [constructor|].
    destruct (lookup_lt_is_Some_2 ns c Lc) as [n En]. cbn. destruct (Nat.eqb_spec c 0); [done|].
    rewrite (rd_lu _ _ _ En). cbn. rewrite (parf_lu _ _ _ En) in *.
    destruct (Nat.eqb_spec (parent n) p) as [<-|Np].
    { exists c. split; [done|]. right. split; [done|]. split; [constructor|]. by rewrite (parf_lu _ _ _ En). }
    destruct (IH fuel) as (x & Ex & O); [lia|done|..].
    { intros y A. apply Hr. apply anc_up; rewrite (parf_lu _ _ _ En); done. }
    exists x. split; [done|]. destruct O as [[-> O]|(? & ? & ?)].
    + left. split; [done|]. intros y A. inversion A; subst; rewrite (parf_lu _ _ _ En) in *; [congruence|]. by apply O.
    + right. repeat split; [done| |done]. apply anc_up; rewrite (parf_lu _ _ _ En); done.
Qed.

Lemma scan_linked ns h l x fuel : linked ns h (l ++ [x]) -> length l < fuel -> scan_last fuel ns h = Some x.
Proof.
  revert h fuel; induction l as [|y l IH]; intros h fuel L F; (destruct fuel as [|fuel]; [lia|]); cbn in L |- *.
  - destruct L as (-> & ? & n & E & N). rewrite (rd_lu _ _ _ E). cbn. by rewrite N.
  - destruct L as (-> & ? & n & E & L). rewrite (rd_lu _ _ _ E). cbn.
    destruct (Nat.eqb_spec (next n) 0) as [Z|]; [|eapply IH; [done|cbn in F; lia]].
    exfalso. rewrite Z in L. destruct l; cbn in L; destruct L as (? & ? & _); congruence.
Qed.

Definition frame1 (ns ns' : list node) (p x : nat) (kp : list nat) : Prop :=
  forall i m, ns !! i = Some m -> exists m', ns' !! i = Some m' /\
    parent m' = (if Nat.eqb i x then p else parent m) /\ is_ref m' = is_ref m /\ referenced m' = referenced m /\
    pub_idx m' = pub_idx m /\ structured m' = structured m /\ rm_type m' = rm_type m /\
    (i <> p -> first_child m' = first_child m) /\ (last kp <> Some i -> next m' = next m).

Lemma add_child_eff ns c p x n nx kp :
  p <> 0 -> p <> x -> x <> 0 -> ns !! p = Some n -> ns !! x = Some nx -> next nx = 0 ->
  linked ns (first_child n) kp -> NoDup kp -> x ∉ kp -> p ∉ kp ->
  (kp = [] \/ c = 0 \/ exists k, lev (parf ns) c k /\ k < length ns /\ forall y, anc (parf ns) c y -> y < length ns /\ y <> 0) ->
  (kp <> [] -> c <> 0 -> forall y, anc (parf ns) c y -> parf ns y = p -> last kp = Some y) ->
  exists ns', add_child (Ptrs ns c) p x = Some (Ptrs ns' x) /\ length ns' = length ns /\ frame1 ns ns' p x kp /\
    exists n', ns' !! p = Some n' /\ linked ns' (first_child n') (kp ++ [x]).
Proof.
  intros P Px X En Ex Nx Lk Nd Xk Pk C Hit.
  assert (exists lc, last_child_for_parent (Ptrs ns c) p = Some (match last kp with Some z => z | None => 0 end, Ptrs ns lc)) as [lc El].
  { unfold last_child_for_parent. destruct (Nat.eqb_spec p 0); [done|]. cbn -[climb_to scan_last]. rewrite (rd_lu _ _ _ En). cbn -[climb_to scan_last].
    destruct kp as [|k0 ks].
    { cbn in Lk. rewrite Lk. cbn. eauto. }
    assert (exists l z, k0 :: ks = l ++ [z]) as (l & z & Ez).
    { destruct (exists_last (l := k0 :: ks)) as (l & z & ?); [done|]. eauto. }
    pose proof Lk as (F0 & K0 & _). rewrite <- F0 in K0. destruct (Nat.eqb_spec (first_child n) 0); [done|].
    rewrite Ez, last_snoc.
    assert (scan_last (S (length ns)) ns (first_child n) = Some z) as Sc.
    { rewrite Ez in Lk, Nd. eapply scan_linked; [done|]. pose proof (nodup_bounded _ _ Nd (linked_le _ _ _ Lk)) as B. rewrite app_length in B. cbn in B. lia. }
    destruct C as [?|[->|(k & Lv & Lb & Hr)]]; [done|..].
    - cbn -[scan_last]. rewrite Sc. cbn. eauto.
    - assert (c <> 0) as Nc by (apply (Hr c); constructor).
      destruct (climb_lev ns p c k (S (length ns)) Lv) as (y & Ey & O); [lia|done|done|].
      rewrite Ey. cbn -[scan_last]. destruct O as [[-> O]|(Y & A & Py)].
      + cbn -[scan_last]. rewrite Sc. cbn. eauto.
      + destruct (Nat.eqb_spec y 0); [done|]. assert (last (k0 :: ks) = Some y) as Ly by (apply Hit; done).
        rewrite Ez, last_snoc in Ly. injection Ly as ->. eauto. }
  unfold add_child. rewrite El. cbn -[upd]. rewrite (upd_ok _ _ _ _ Ex). cbn -[upd].
  destruct (Nat.eqb_spec p 0); [done|].
  assert (<[x:=set_parent nx p]> ns !! p = Some n) as En1 by (rewrite list_lookup_insert_ne; [done|congruence]).
  rewrite (rd_lu _ _ _ En1). cbn -[upd].
  assert (x < length ns) as Lx by (by eapply lookup_lt_Some). assert (p < length ns) as Lp by (by eapply lookup_lt_Some).
  destruct (last kp) as [z|] eqn:Lz.
  - assert (kp <> []) as Kn by (by intros ->). pose proof Lz as [l ->]%last_Some.
    destruct (Nat.eqb_spec (first_child n) 0) as [E0|].
    { exfalso. rewrite E0 in Lk. destruct l; cbn in Lk; destruct Lk as (? & ? & _); congruence. }
    assert (z ∈ l ++ [z]) as Hz by set_solver.
    assert (z < length ns) as Lzl by (pose proof (linked_le _ _ _ Lk) as F; rewrite Forall_forall in F; by apply F).
    assert (z <> 0) as Zz by (pose proof (linked_nz _ _ _ Lk) as F; rewrite Forall_forall in F; by apply F).
    destruct (Nat.eqb_spec z 0); [done|].
    destruct (lookup_lt_is_Some_2 ns z Lzl) as [nz Ez].
    assert (z <> x) by (intros ->; done). assert (z <> p) by (intros ->; done).
    assert (<[x:=set_parent nx p]> ns !! z = Some nz) as Ez1 by (rewrite list_lookup_insert_ne; [done|congruence]).
    rewrite (upd_ok _ _ _ _ Ez1). cbn. eexists. split; [reflexivity|]. split; [by rewrite !insert_length|]. split.
    + intros i m Em. destruct (Nat.eq_dec i z) as [->|].
      * rewrite list_lookup_insert by (rewrite insert_length; lia). rewrite Ez in Em. injection Em as <-.
        eexists. split; [done|]. cbn. destruct (Nat.eqb_spec z x); [done|]. rewrite Lz. repeat split; congruence.
      * rewrite list_lookup_insert_ne by done. destruct (Nat.eq_dec i x) as [->|].
        -- rewrite list_lookup_insert by lia. rewrite Ex in Em. injection Em as <-. eexists. split; [done|]. cbn. rewrite Nat.eqb_refl. done.
        -- rewrite list_lookup_insert_ne by done. exists m. split; [done|]. destruct (Nat.eqb_spec i x); [done|]. done.
    + exists n. split; [by rewrite list_lookup_insert_ne|]. rewrite <- app_assoc. cbn.
      eapply linked_snoc; [done|done|exact Ez|..].
      * by rewrite list_lookup_insert by (rewrite insert_length; lia).
      * rewrite list_lookup_insert_ne by done. by rewrite list_lookup_insert.
      * done.
      * done.
      * intros y Hy. assert (y <> z). { intros ->. apply NoDup_app in Nd as (_ & D & _). eapply D; [done|set_solver]. }
        assert (y <> x) by (intros ->; set_solver). by rewrite !list_lookup_insert_ne.
  - apply last_None in Lz as ->. cbn in Lk. rewrite Lk. cbn -[upd]. rewrite (upd_ok _ _ _ _ En1). cbn.
    eexists. split; [reflexivity|]. split; [by rewrite !insert_length|]. split.
    + intros i m Em. destruct (Nat.eq_dec i p) as [->|].
      * rewrite list_lookup_insert by (rewrite insert_length; lia). rewrite En in Em. injection Em as <-.
        eexists. split; [done|]. cbn. destruct (Nat.eqb_spec p x); [done|]. done.
      * rewrite list_lookup_insert_ne by done. destruct (Nat.eq_dec i x) as [->|].
        -- rewrite list_lookup_insert by lia. rewrite Ex in Em. injection Em as <-. eexists. split; [done|]. cbn. rewrite Nat.eqb_refl. done.
        -- rewrite list_lookup_insert_ne by done. exists m. split; [done|]. destruct (Nat.eqb_spec i x); [done|]. done.
    + exists (set_first_child n x). split; [by rewrite list_lookup_insert by (rewrite insert_length; lia)|]. cbn.
      split; [done|]. split; [done|]. exists (set_parent nx p). split; [|done].
      rewrite list_lookup_insert_ne by done. by rewrite list_lookup_insert.
Qed.

(** ** Steps that keep the forest in order *)
Lemma lev_agree par par' x k : lev par x k -> (forall y, anc par x y -> par' y = par y) -> lev par' x k.
Proof.
  induction 1 as [x E|x k N L IH]; intros H; [constructor; rewrite H; [done|constructor]|].
  constructor; rewrite (H x) by constructor; [done|]. apply IH. intros y A. apply H. by apply anc_up.
Qed.
Lemma anc_agree par par' x y : anc par x y -> (forall z, anc par x z -> z <> y -> par' z = par z) -> anc par' x y.
Proof.
  induction 1 as [x|x y N A IH]; intros H; [constructor|]. destruct (Nat.eq_dec x y) as [->|Ne]; [constructor|].
  apply anc_up; rewrite (H x) by (done || constructor); [done|]. apply IH. intros z B. apply H. by apply anc_up.
Qed.

(** Only the flags of nodes change, and the way out of references. *)
Definition hitc (ns : list node) (K : nat -> list nat) (c par : nat) : Prop :=
  K par = [] \/ (c <> 0 /\ c < length ns /\ forall y, anc (parf ns) c y -> parf ns y = par -> last (K par) = Some y).

Lemma forest_K_out ns K : forest_ok ns K -> forall i, length ns <= i -> K i = [].
Proof.
  intros R i L. destruct (K i) as [|c l] eqn:E; [done|]. assert (c ∈ K i) as H by (rewrite E; left).
  apply (kid_lt _ _ R) in H. lia.
Qed.

Lemma push_ok ns K c nl par npar : forest_ok ns K -> par <> 0 -> ns !! par = Some npar -> is_ref npar = false ->
  parent nl = par -> next nl = 0 -> first_child nl = 0 -> is_ref nl = false -> hitc ns K c par ->
  exists ns', add_child (Ptrs (ns ++ [nl]) c) par (length ns) = Some (Ptrs ns' (length ns)) /\
    length ns' = S (length ns) /\ forest_ok ns' (fset K par (K par ++ [length ns])) /\
    frame1 (ns ++ [nl]) ns' par (length ns) (K par).
Proof.
  intros R P Ep Rp Nl1 Nl2 Nl3 Nl4 H.
  pose proof (lookup_lt_Some _ _ _ Ep) as Lp. pose proof (fo_kids _ _ R _ _ Ep) as Lk. rewrite Rp in Lk.
  assert (forall i, i < length ns -> (ns ++ [nl]) !! i = ns !! i) as Old by (intros; by apply lookup_app_l).
  assert ((ns ++ [nl]) !! length ns = Some nl) as New by (rewrite lookup_app_r, Nat.sub_diag by lia; done).
  assert (forall i, i < length ns -> parf (ns ++ [nl]) i = parf ns i) as Po by (intros; unfold parf; by rewrite Old).
  assert (forall h l, linked ns h l -> linked (ns ++ [nl]) h l) as Lo.
  { intros h l Hl. eapply linked_frame; [|exact Hl]. intros x n _ E. exists n. split; [|done]. rewrite Old; [done|]. by eapply lookup_lt_Some. }
  assert (forall p, length ns ∉ K p) as Kn by (intros p Hp; apply (kid_lt _ _ R) in Hp; lia).
  destruct (add_child_eff (ns ++ [nl]) c par (length ns) npar nl (K par)) as (ns' & E & Ln & Fr & n' & En' & Lk').
  { done. }
  { lia. }
  { pose proof (fo_len _ _ R). lia. }
  { by rewrite Old. }
  { done. }
  { done. }
  { by apply Lo. }
  { apply R. }
  { done. }
  { intros Hp. apply (fo_in _ _ R) in Hp as (_ & _ & _ & Ep'). destruct (fo_lev _ _ R par) as (k & Hk); [done|done|].
    inversion Hk as [|? k1 ? Hk1]; subst; [congruence|]. rewrite Ep' in Hk1. pose proof (lev_fun _ _ _ Hk _ Hk1). lia. }
  { destruct H as [?|(C1 & C2 & _)]; [by left|right; right]. destruct (fo_depth _ _ R c C2) as (k & Hk & Lb). exists k.
    assert (forall y, anc (parf ns) c y -> y <> 0 /\ y < length ns) as An by (intros y A; by apply (anc_in _ _ R _ _ A)).
    assert (forall y, anc (parf ns) c y -> parf (ns ++ [nl]) y = parf ns y) as Ag by (intros y A; apply Po; by apply An).
    split; [by eapply lev_agree|]. split; [rewrite app_length; cbn; lia|]. intros y A.
    assert (anc (parf ns) c y) as A'.
    { clear -A Ag. induction A as [|x y N A IH]; [constructor|]. rewrite (Ag x) in * by constructor. apply anc_up; [done|].
      apply IH. intros z Hz. apply Ag. by apply anc_up. }
    apply An in A'. rewrite app_length. cbn. lia. }
  { intros Kne C1 y A Py. destruct H as [?|(_ & C2 & Hh)]; [done|].
    assert (forall y, anc (parf ns) c y -> parf (ns ++ [nl]) y = parf ns y) as Ag by (intros z B; apply Po; by apply (anc_in _ _ R _ _ B)).
    assert (anc (parf ns) c y) as A'.
    { clear -A Ag. induction A as [|x y N A IH]; [constructor|]. rewrite (Ag x) in * by constructor. apply anc_up; [done|].
      apply IH. intros z Hz. apply Ag. by apply anc_up. }
    apply Hh; [done|]. rewrite <- Ag; done. }
  exists ns'. split; [done|]. split; [rewrite Ln, app_length; cbn; lia|]. split; [|done].
  assert (length ns' = S (length ns)) as Ln' by (rewrite Ln, app_length; cbn; lia).
  assert (forall i, parf ns' i = if Nat.eqb i (length ns) then par else parf ns i) as Pn.
  { intros i. destruct (Nat.lt_ge_cases i (S (length ns))) as [L|L].
    - destruct (lookup_lt_is_Some_2 (ns ++ [nl]) i) as [m Em]; [rewrite app_length; cbn; lia|].
      destruct (Fr i m Em) as (m' & Em' & Pm & _). rewrite (parf_lu _ _ _ Em'), Pm. destruct (Nat.eqb_spec i (length ns)); [done|].
      rewrite Old in Em by lia. by rewrite (parf_lu _ _ _ Em).
    - destruct (Nat.eqb_spec i (length ns)); [lia|]. unfold parf. rewrite !lookup_ge_None_2; [done|lia|lia]. }
  assert (forall i m', ns' !! i = Some m' -> i <> length ns -> exists m, ns !! i = Some m) as Back.
  { intros i m' Em' Ni. apply lookup_lt_is_Some_2. apply lookup_lt_Some in Em'. lia. }
  constructor.
  - lia.
  - destruct (fo_zero _ _ R) as (n & E0 & Z1 & Z2 & Z3 & Z4). assert (0 < length ns) by (pose proof (fo_len _ _ R); lia).
    destruct (Fr 0 n) as (m & Em & F1 & F2 & _ & _ & _ & _ & F3 & F4); [by rewrite Old|].
    exists m. split; [done|]. destruct (Nat.eqb_spec 0 (length ns)); [lia|]. rewrite F1, F2, F3, F4; [done| |done].
    intros L. apply last_Some in L as [l Hl]. assert (0 ∈ K par) as Hi by (rewrite Hl; set_solver). apply (kid_lt _ _ R) in Hi. lia.
  - intros i m' Em'. rewrite <- (parf_lu _ _ _ Em'), Pn. destruct (Nat.eqb_spec i (length ns)); [lia|]. pose proof (parf_lt _ _ R i). lia.
  - intros i m' Em'. destruct (Nat.eq_dec i (length ns)) as [->|Ni].
    + destruct (Fr (length ns) nl New) as (m2 & Em2 & F1 & F2 & _ & _ & _ & _ & F3 & _). rewrite Em2 in Em'. injection Em' as ->.
      rewrite F2, Nl4, F3, Nl3, fset_other by lia. rewrite (forest_K_out _ _ R) by lia. done.
    + destruct (Back _ _ Em' Ni) as [m Em]. assert (i < length ns) as Li by (by eapply lookup_lt_Some).
      destruct (Fr i m) as (m2 & Em2 & F1 & F2 & _ & _ & _ & _ & F3 & _); [by rewrite Old|]. rewrite Em2 in Em'. injection Em' as ->.
      destruct (Nat.eq_dec i par) as [->|Np].
      * rewrite F2. rewrite Ep in Em. injection Em as <-. rewrite Rp, fset_same. rewrite En' in Em2. by injection Em2 as <-.
      * rewrite F2, fset_other, F3 by done. pose proof (fo_kids _ _ R _ _ Em) as Lm. destruct (is_ref m); [done|].
        eapply linked_frame; [|by apply Lo in Lm]. intros y ny Hy Ey.
        destruct (Fr y ny Ey) as (ny' & Ey' & _ & _ & _ & _ & _ & _ & _ & F4). exists ny'. split; [done|]. apply F4.
        intros L. apply last_Some in L as [l Hl]. assert (y ∈ K par) as Hi by (rewrite Hl; set_solver).
        apply (fo_in _ _ R) in Hi as (_ & _ & _ & Pa). apply (fo_in _ _ R) in Hy as (_ & _ & _ & Pb). congruence.
  - intros p x. rewrite Ln', Pn. destruct (Nat.eq_dec p par) as [->|Np].
    + rewrite fset_same, elem_of_app, elem_of_list_singleton, (fo_in _ _ R). destruct (Nat.eqb_spec x (length ns)) as [->|Nx].
      * split; [intros _|by right]. pose proof (fo_len _ _ R). repeat split; lia || done.
      * split; [intros [(? & ? & ? & ?)|?]; [|done]; repeat split; lia || done|]. intros (? & ? & ? & ?). left. repeat split; lia || done.
    + rewrite fset_other, (fo_in _ _ R) by done. destruct (Nat.eqb_spec x (length ns)) as [->|Nx].
      * split; [lia|]. intros (_ & _ & _ & ?). congruence.
      * split; intros (? & ? & ? & ?); repeat split; lia || done.
  - intros p. destruct (Nat.eq_dec p par) as [->|Np]; [rewrite fset_same|rewrite fset_other by done; apply R].
    apply NoDup_app. split; [apply R|]. split; [|apply NoDup_singleton]. intros y Hy ->%elem_of_list_singleton. by apply Kn in Hy.
  - assert (forall i k, i <> 0 -> i < length ns -> lev (parf ns) i k -> lev (parf ns') i k) as Lv.
    { intros i k I L Hk. eapply lev_agree; [exact Hk|]. intros y A. apply (anc_in _ _ R _ _ A I) in L as [_ L]. rewrite Pn. destruct (Nat.eqb_spec y (length ns)); [lia|done]. }
    intros i I L. destruct (Nat.eq_dec i (length ns)) as [->|Ni].
    + destruct (fo_lev _ _ R par P Lp) as (k & Hk). exists (S k). constructor; rewrite Pn, Nat.eqb_refl; [done|]. by apply Lv.
    + destruct (fo_lev _ _ R i I) as (k & Hk); [lia|]. exists k. apply Lv; [done|lia|done].
  - intros i m' I Em' Pm. destruct (Nat.eq_dec i (length ns)) as [->|Ni].
    + rewrite <- (parf_lu _ _ _ Em'), Pn, Nat.eqb_refl in Pm. done.
    + destruct (Back _ _ Em' Ni) as [m Em]. assert (i < length ns) as Li by (by eapply lookup_lt_Some).
      destruct (Fr i m) as (m2 & Em2 & F1 & F2 & _ & _ & _ & _ & F3 & F4); [by rewrite Old|]. rewrite Em2 in Em'. injection Em' as ->.
      rewrite F1 in Pm. destruct (Nat.eqb_spec i (length ns)); [done|]. destruct (fo_root _ _ R i m I Em Pm) as [-> N1]. split; [done|].
      rewrite F4; [done|]. intros L. apply last_Some in L as [l Hl]. assert (1 ∈ K par) as Hi by (rewrite Hl; set_solver).
      apply (fo_in _ _ R) in Hi as (_ & _ & _ & Pa). rewrite (parf_lu _ _ _ Em) in Pa. congruence.
Qed.

(** A single child moves to another parent; its old parent becomes a reference to it. *)
Definition frame2 (ns ns' : list node) (q r par : nat) : Prop :=
  forall i m, ns !! i = Some m -> exists m', ns' !! i = Some m' /\
    parent m' = (if Nat.eqb i r then par else parent m) /\ is_ref m' = (if Nat.eqb i q then true else is_ref m) /\
    referenced m' = (if Nat.eqb i r then true else referenced m) /\
    pub_idx m' = pub_idx m /\ structured m' = structured m /\ rm_type m' = rm_type m /\
    (i <> par -> first_child m' = first_child m).

Definition mark_ref' (n : node) : node :=
  Node (parent n) (next n) (first_child n) (pub_idx n) true (referenced n) (structured n) (rm_type n).
Definition mark_refd' (n : node) : node :=
  Node (parent n) (next n) (first_child n) (pub_idx n) (is_ref n) true (structured n) (rm_type n).

Lemma move_ok ns K c par npar q r nq nr : forest_ok ns K -> par <> 0 -> ns !! par = Some npar -> is_ref npar = false ->
  K q = [r] -> ns !! q = Some nq -> ns !! r = Some nr -> q <> par -> ~ anc (parf ns) par r -> hitc ns K c par ->
  let ns2 := <[r := mark_refd' nr]> (<[q := mark_ref' nq]> ns) in
  exists ns', add_child (Ptrs ns2 c) par r = Some (Ptrs ns' r) /\
    length ns' = length ns /\ forest_ok ns' (fset (fset K q []) par (K par ++ [r])) /\ frame2 ns ns' q r par.
Proof.
  intros R P Ep Rp Kq Eq Er Qp Nanc H ns2.
  assert (r ∈ K q) as Hr by (rewrite Kq; set_solver). destruct (kid_lt _ _ R _ _ Hr) as (R0 & Lr & Q0 & Lq & Pr).
  assert (q <> r) as Qr by (intros ->; by eapply (kid_not_anc _ _ R _ _ Hr); constructor).
  assert (par <> r) as Pr' by (intros ->; apply Nanc; constructor).
  pose proof (lookup_lt_Some _ _ _ Ep) as Lp. pose proof (fo_kids _ _ R _ _ Ep) as Lk. rewrite Rp in Lk.
  pose proof (fo_kids _ _ R _ _ Eq) as Lkq. destruct (is_ref nq) eqn:Rq; [congruence|]. rewrite Kq in Lkq.
  destruct Lkq as (Fq & _ & nr' & Er' & Nr). rewrite Er in Er'. injection Er' as <-. cbn in Nr.
  assert (length ns2 = length ns) as L2 by (by unfold ns2; rewrite !insert_length).
  assert (forall i m, ns !! i = Some m -> exists m', ns2 !! i = Some m' /\ parent m' = parent m /\ next m' = next m /\ first_child m' = first_child m /\
     pub_idx m' = pub_idx m /\ structured m' = structured m /\ rm_type m' = rm_type m /\
     is_ref m' = (if Nat.eqb i q then true else is_ref m) /\ referenced m' = (if Nat.eqb i r then true else referenced m)) as F2.
  { intros i m Em. unfold ns2. destruct (Nat.eq_dec i r) as [->|Nr'].
    - rewrite list_lookup_insert by (by rewrite insert_length). rewrite Er in Em. injection Em as <-. eexists. split; [done|]. cbn.
      rewrite Nat.eqb_refl. destruct (Nat.eqb_spec r q); [congruence|]. done.
    - rewrite list_lookup_insert_ne by done. destruct (Nat.eq_dec i q) as [->|Nq].
      + rewrite list_lookup_insert by done. rewrite Eq in Em. injection Em as <-. eexists. split; [done|]. cbn.
        rewrite Nat.eqb_refl. destruct (Nat.eqb_spec q r); [done|]. done.
      + rewrite list_lookup_insert_ne by done. exists m. destruct (Nat.eqb_spec i q); [done|]. destruct (Nat.eqb_spec i r); done. }
  assert (forall i, parf ns2 i = parf ns i) as P2.
  { intros i. destruct (Nat.lt_ge_cases i (length ns)) as [L|L].
    - destruct (lookup_lt_is_Some_2 ns i L) as [m Em]. destruct (F2 i m Em) as (m' & Em' & Pm & _). by rewrite (parf_lu _ _ _ Em), (parf_lu _ _ _ Em').
    - unfold parf. rewrite !lookup_ge_None_2; [done|lia|lia]. }
  assert (forall h l, linked ns h l -> linked ns2 h l) as Lo.
  { intros h l Hl. eapply linked_frame; [|exact Hl]. intros x n _ E. destruct (F2 x n E) as (n' & ? & _ & ? & _). eauto. }
  assert (r ∉ K par) as Rk by (intros Hp; apply (kid_lt _ _ R) in Hp; lia).
  destruct (F2 _ _ Ep) as (npar2 & Ep2 & _ & _ & Fp2 & _). destruct (F2 _ _ Er) as (nr2 & Er2 & _ & Nr2 & _).
  destruct (add_child_eff ns2 c par r npar2 nr2 (K par)) as (ns' & E & Ln & Fr & n' & En' & Lk').
  { done. }
  { done. }
  { done. }
  { done. }
  { done. }
  { congruence. }
  { rewrite Fp2. by apply Lo. }
  { apply R. }
  { done. }
  { intros Hp. eapply (kid_not_anc _ _ R _ _ Hp). constructor. }
  { destruct H as [?|(C1 & C2 & _)]; [by left|right; right]. destruct (fo_depth _ _ R c C2) as (k & Hk & Lb). exists k.
    split; [eapply lev_agree; [exact Hk|]; intros; apply P2|]. split; [lia|]. intros y A. rewrite L2.
    assert (anc (parf ns) c y) as A' by (eapply anc_agree; [exact A|]; intros; by rewrite P2).
    apply (anc_in _ _ R) in A'; [|done..]. lia. }
  { intros Kne C1 y A Py. destruct H as [?|(_ & C2 & Hh)]; [done|]. apply Hh; [|by rewrite <- P2].
    eapply anc_agree; [exact A|]. intros. by rewrite P2. }
  exists ns'. split; [done|]. split; [lia|].
  assert (frame2 ns ns' q r par) as Frm.
  { intros i m Em. destruct (F2 i m Em) as (m2 & Em2 & A1 & A2 & A3 & A4 & A5 & A6 & A7 & A8).
    destruct (Fr i m2 Em2) as (m3 & Em3 & B1 & B2 & B3 & B4 & B5 & B6 & B7 & _). exists m3. split; [done|].
    rewrite B1, B2, B3, B4, B5, B6, A1, A4, A5, A6, A7, A8. repeat split. intros Ni. rewrite B7, A3; done. }
  split; [|done].
  assert (forall i, parf ns' i = if Nat.eqb i r then par else parf ns i) as Pn.
  { intros i. destruct (Nat.lt_ge_cases i (length ns)) as [L|L].
    - destruct (lookup_lt_is_Some_2 ns i L) as [m Em]. destruct (Frm i m Em) as (m' & Em' & Pm & _). by rewrite (parf_lu _ _ _ Em), (parf_lu _ _ _ Em').
    - destruct (Nat.eqb_spec i r); [lia|]. unfold parf. rewrite !lookup_ge_None_2; [done|lia|lia]. }
  assert (forall i m', ns' !! i = Some m' -> exists m, ns !! i = Some m) as Back.
  { intros i m' Em'. apply lookup_lt_is_Some_2. apply lookup_lt_Some in Em'. lia. }
  assert (forall i, i <> par -> i <> r -> i ∉ K par -> forall m m', ns !! i = Some m -> ns' !! i = Some m' -> next m' = next m) as Nxt.
  { intros i _ _ Ik m m' Em Em'. destruct (F2 i m Em) as (m2 & Em2 & _ & A2 & _). destruct (Fr i m2 Em2) as (m3 & Em3 & _ & _ & _ & _ & _ & _ & _ & B8).
    rewrite Em3 in Em'. injection Em' as ->. rewrite B8; [done|]. intros L. apply last_Some in L as [l Hl]. apply Ik. rewrite Hl. set_solver. }
  constructor.
  - rewrite Ln, L2. apply R.
  - destruct (fo_zero _ _ R) as (n & E0 & Z1 & Z2 & Z3 & Z4).
    destruct (Frm 0 n E0) as (m & Em & A1 & A2 & _ & _ & _ & _ & A3). exists m. split; [done|].
    destruct (Nat.eqb_spec 0 r); [congruence|]. destruct (Nat.eqb_spec 0 q); [congruence|]. rewrite A1, A2, A3 by done.
    rewrite (Nxt 0) with (m := n) (m' := m); try done. intros Hi. apply (kid_lt _ _ R) in Hi. lia.
  - intros i m' Em'. rewrite <- (parf_lu _ _ _ Em'), Pn, Ln, L2. destruct (Nat.eqb_spec i r); [done|]. apply (parf_lt _ _ R i).
  - intros i m' Em'. destruct (Back _ _ Em') as [m Em]. destruct (Frm i m Em) as (m2 & Em2 & A1 & A2 & _ & _ & _ & _ & A3).
    rewrite Em2 in Em'. injection Em' as ->. rewrite A2. destruct (Nat.eqb_spec i q) as [->|Nq].
    { rewrite fset_other, fset_same; done. }
    destruct (Nat.eq_dec i par) as [->|Np].
    + rewrite Ep in Em. injection Em as <-. rewrite Rp, fset_same. rewrite En' in Em2. by injection Em2 as <-.
    + rewrite !fset_other, A3 by done. pose proof (fo_kids _ _ R _ _ Em) as Lm. destruct (is_ref m); [done|].
      eapply linked_frame; [|exact Lm]. intros y ny Hy Ey.
      destruct (Frm y ny Ey) as (ny' & Ey' & _). exists ny'. split; [done|].
      destruct (kid_lt _ _ R _ _ Hy) as (_ & _ & _ & _ & Py).
      assert (y <> r) by (intros ->; congruence).
      assert (y ∉ K par) by (intros Hk; apply (kid_lt _ _ R) in Hk as (_ & _ & _ & _ & ?); congruence).
      destruct (F2 y ny Ey) as (m4 & Em4 & _ & B2 & _). destruct (Fr y m4 Em4) as (m5 & Em5 & _ & _ & _ & _ & _ & _ & _ & B8).
      rewrite Em5 in Ey'. injection Ey' as ->. rewrite B8; [done|]. intros L. apply last_Some in L as [l Hl]. apply H1. rewrite Hl. set_solver.
  - intros p x. rewrite Ln, L2, Pn. destruct (Nat.eq_dec p par) as [->|Np].
    + rewrite fset_same, elem_of_app, elem_of_list_singleton, (fo_in _ _ R). destruct (Nat.eqb_spec x r) as [->|Nx].
      * split; [intros _|by right]. done.
      * split; [intros [?|?]; done|]. by left.
    + rewrite fset_other by done. destruct (Nat.eq_dec p q) as [->|Nq].
      * rewrite fset_same. split; [by intros ?%elem_of_nil|]. intros (? & ? & ? & Px). destruct (Nat.eqb_spec x r); [congruence|].
        assert (x ∈ K q) as Hx by (apply (fo_in _ _ R); done). rewrite Kq in Hx. by apply elem_of_list_singleton in Hx.
      * rewrite fset_other, (fo_in _ _ R) by done. destruct (Nat.eqb_spec x r) as [->|Nx]; [|done].
        split; intros (? & ? & ? & ?); congruence.
  - intros p. destruct (Nat.eq_dec p par) as [->|Np]; [rewrite fset_same|rewrite fset_other by done].
    + apply NoDup_app. split; [apply R|]. split; [|apply NoDup_singleton]. by intros y Hy ->%elem_of_list_singleton.
    + destruct (Nat.eq_dec p q) as [->|Nq]; [rewrite fset_same; constructor|rewrite fset_other by done; apply R].
  - rewrite Ln, L2.
    assert (exists kp, lev (parf ns') par kp) as [kp Hkp].
    { destruct (fo_lev _ _ R par P Lp) as (k & Hk). exists k. eapply lev_agree; [exact Hk|]. intros y A. rewrite Pn.
      destruct (Nat.eqb_spec y r) as [->|]; done. }
    intros i I L. destruct (fo_lev _ _ R i I L) as (k & Hk). clear -R Hk Hkp Pn I L P. revert I L. induction Hk as [i E|i k N Hk IH]; intros I L.
    + destruct (Nat.eq_dec i r) as [->|Ni].
      * exists (S kp). constructor; rewrite Pn, Nat.eqb_refl; done.
      * exists 0. constructor. rewrite Pn. destruct (Nat.eqb_spec i r); done.
    + destruct (Nat.eq_dec i r) as [->|Ni].
      * exists (S kp). constructor; rewrite Pn, Nat.eqb_refl; done.
      * destruct IH as (k' & Hk'); [done|apply (parf_lt _ _ R)|]. exists (S k'). constructor; rewrite Pn; destruct (Nat.eqb_spec i r); done.
  - intros i m' I Em' Pm. rewrite <- (parf_lu _ _ _ Em'), Pn in Pm. destruct (Nat.eqb_spec i r); [done|].
    destruct (Back _ _ Em') as [m Em]. rewrite (parf_lu _ _ _ Em) in Pm. destruct (fo_root _ _ R i m I Em Pm) as [-> N1]. split; [done|].
    assert (1 ∉ K par) as Hk. { intros Hk. apply (kid_lt _ _ R) in Hk as (_ & _ & _ & _ & Pk). rewrite (parf_lu _ _ _ Em) in Pk. congruence. }
    destruct (F2 1 m Em) as (m4 & Em4 & _ & B2 & _). destruct (Fr 1 m4 Em4) as (m5 & Em5 & _ & _ & _ & _ & _ & _ & _ & B8).
    rewrite Em5 in Em'. injection Em' as ->. rewrite B8; [congruence|]. intros L. apply last_Some in L as [l Hl]. apply Hk. rewrite Hl. set_solver.
Qed.
