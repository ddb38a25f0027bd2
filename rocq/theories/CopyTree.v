(** Trees with a description of the data at each node, for the proof of C77. *)
From stdpp Require Import list sets.
From Verif Require Import Base Ptrs DfsProof PruneProof TreeFacts Save SaveSpec Json JsonSpec Copy CopySpec.
From Verif Require Load LoadSpec LoadFits LoadSafe.
Local Open Scope Z_scope.

(** Node, enclosing structure, descriptor, address, offset from what is around it. *)
Inductive dtree := D (i : nat) (e : option (Z * nat)) (g : fd) (a o : Z) (ks : list dtree).
Definition d_i (d : dtree) : nat := let '(D i _ _ _ _ _) := d in i.
Definition d_e (d : dtree) : option (Z * nat) := let '(D _ e _ _ _ _) := d in e.
Definition d_g (d : dtree) : fd := let '(D _ _ g _ _ _) := d in g.
Definition d_a (d : dtree) : Z := let '(D _ _ _ a _ _) := d in a.
Definition d_o (d : dtree) : Z := let '(D _ _ _ _ o _) := d in o.
Definition d_ks (d : dtree) : list dtree := let '(D _ _ _ _ _ ks) := d in ks.
Fixpoint shape (d : dtree) : tree := match d with D i _ _ _ _ ks => T i (map shape ks) end.
Fixpoint flat (d : dtree) : list dtree := d :: match d with D _ _ _ _ _ ks => concat (map flat ks) end.

Fixpoint dtree_ind' (P : dtree -> Prop) (IH : forall i e g a o ks, Forall P ks -> P (D i e g a o ks)) (d : dtree) : P d :=
  match d with
  | D i e g a o ks => IH i e g a o ks ((fix go ks : Forall P ks :=
      match ks with [] => Forall_nil_2 _ | k :: ks => Forall_cons_2 _ _ _ (dtree_ind' P IH k) (go ks) end) ks)
  end.

Lemma flat_self d : d ∈ flat d.
Proof. destruct d. left. Qed.
Lemma flat_nodes d : nodes (shape d) = map d_i (flat d).
Proof.
  induction d as [i e g a o ks IH] using dtree_ind'. cbn. f_equal. induction IH as [|k ks Hk _ IH]; [done|]. cbn. by rewrite map_app, Hk, IH.
Qed.
Lemma flat_in i e g a o ks d : d ∈ flat (D i e g a o ks) <-> d = D i e g a o ks \/ exists k, k ∈ ks /\ d ∈ flat k.
Proof.
  cbn [flat]. rewrite elem_of_cons, elem_of_list_In, in_concat. split.
  - intros [->|(l & L & Hd)]; [by left|right]. apply in_map_iff in L as (k & <- & Hk). exists k. split; by apply elem_of_list_In.
  - intros [->|(k & Hk & Hd)]; [by left|right]. exists (flat k). split; [apply in_map|]; by apply elem_of_list_In.
Qed.
Lemma flat_cases d0 d : d ∈ flat d0 -> d = d0 \/ exists d', d' ∈ flat d0 /\ d ∈ d_ks d'.
Proof.
  revert d. induction d0 as [i e g a o ks IH] using dtree_ind'. intros d. rewrite flat_in. intros [->|(k & Hk & Hd)]; [by left|right].
  rewrite Forall_forall in IH. destruct (IH k Hk d Hd) as [->|(d' & Hd' & Hin)].
  - exists (D i e g a o ks). split; [apply flat_self|done].
  - exists d'. split; [|done]. apply flat_in. right. eauto.
Qed.
Lemma concat_lookup {A} (ls : list (list A)) j x : concat ls !! j = Some x ->
  exists l1 l l2 j', ls = l1 ++ l :: l2 /\ j = (length (concat l1) + j')%nat /\ l !! j' = Some x.
Proof.
  revert j. induction ls as [|l ls IH]; intros j; [done|]. cbn. rewrite lookup_app_Some. intros [H|[L H]].
  - by exists [], l, ls, j.
  - destruct (IH _ H) as (l1 & l' & l2 & j' & -> & E & H'). exists (l :: l1), l', l2, j'. split; [done|]. split; [|done]. cbn. rewrite app_length. lia.
Qed.
Lemma flat_kid d0 k d c : flat d0 !! k = Some d -> c ∈ d_ks d -> exists k', (k < k')%nat /\ flat d0 !! k' = Some c.
Proof.
  revert k. induction d0 as [i e g a o ks IH] using dtree_ind'. intros [|k]; cbn [flat lookup].
  - cbn. intros [= <-] Hc. cbn in Hc. assert (c ∈ concat (map flat ks)) as H.
    { apply elem_of_list_In, in_concat. exists (flat c). split; [apply in_map|]; apply elem_of_list_In; [done|apply flat_self]. }
    apply elem_of_list_lookup in H as [j H]. exists (S j). split; [lia|done].
  - cbn. intros H Hc. destruct (concat_lookup _ _ _ H) as (l1 & l & l2 & j' & E & -> & H').
    assert (exists x, x ∈ ks /\ l = flat x) as (x & Hx & ->).
    { assert (l ∈ map flat ks) as L by (rewrite E; set_solver). apply elem_of_list_In, in_map_iff in L as (x & <- & Hx). exists x. by rewrite elem_of_list_In. }
    rewrite Forall_forall in IH. destruct (IH x Hx j' H' Hc) as (k' & L & Hk'). exists (S (length (concat l1) + k')). split; [lia|].
    change (concat (map flat ks) !! (length (concat l1) + k')%nat = Some c). rewrite E, concat_app, lookup_app_r by lia.
    replace (length (concat l1) + k' - length (concat l1))%nat with k' by lia. cbn [concat]. by apply lookup_app_l_Some.
Qed.
Lemma flat_kid_in d0 d c : d ∈ flat d0 -> c ∈ d_ks d -> c ∈ flat d0.
Proof. intros H Hc. apply elem_of_list_lookup in H as [k H]. destruct (flat_kid _ _ _ _ H Hc) as (k' & _ & H'). by eapply elem_of_list_lookup_2. Qed.

(** The table holds the tree below every node. *)
Lemma flat_tree ns r d0 : forall p nx, tree_at ns p nx (rename r (shape d0)) -> forall d, d ∈ flat d0 -> exists p' nx', tree_at ns p' nx' (rename r (shape d)).
Proof.
  induction d0 as [i e g a o ks IH] using dtree_ind'. intros p nx A d Hd. apply flat_in in Hd as [->|(k & Hk & Hd)]; [eauto|].
  cbn [shape rename] in A. rewrite tree_at_eq in A. destruct A as (n & _ & _ & _ & _ & K).
  assert (Hne : map (rename r) (map shape ks) <> []) by (intros E; apply map_eq_nil, map_eq_nil in E; subst ks; by apply elem_of_nil in Hk).
  destruct (expandable n); [|done]. destruct K as (_ & _ & K). revert K Hk. clear Hne. induction IH as [|c cs Hc _ IHc]; intros K Hk; [by apply elem_of_nil in Hk|].
  cbn in K. destruct K as [K1 K2]. apply elem_of_cons in Hk as [->|Hk]; [by eapply Hc|by apply IHc].
Qed.
Lemma trees_at_in ns p ks k : trees_at ns p ks -> k ∈ ks -> exists nx, tree_at ns p nx k.
Proof. induction ks as [|c cs IH]; [by intros _ ?%elem_of_nil|]. cbn. intros [A B] H. apply elem_of_cons in H as [->|H]; eauto. Qed.
Lemma flat_parent ns r d0 p nx d c : tree_at ns p nx (rename r (shape d0)) -> d ∈ flat d0 -> c ∈ d_ks d ->
  exists n, ns !! r (d_i c) = Some n /\ parent n = r (d_i d) /\ r (d_i d) <> 0%nat.
Proof.
  intros A Hd Hc. destruct (flat_tree ns r d0 p nx A d Hd) as (p' & nx' & B). destruct d as [i e g a o ks]. cbn [shape rename d_i d_ks] in *.
  rewrite tree_at_eq in B. destruct B as (n & _ & Z0 & _ & _ & K).
  assert (Hin : rename r (shape c) ∈ map (rename r) (map shape ks)) by (apply elem_of_list_In, in_map, in_map; by apply elem_of_list_In).
  destruct (expandable n); [|rewrite K in Hin; by apply elem_of_nil in Hin]. destruct K as (_ & _ & K).
  destruct (trees_at_in _ _ _ _ K Hin) as (nx'' & C). destruct (tree_at_root _ _ _ _ C) as (_ & m & Em & Pm & _). exists m.
  destruct c. cbn in *. done.
Qed.
Lemma rename_id t : rename (fun i => i) t = t.
Proof. induction t as [i ks IH] using tree_ind'. cbn. f_equal. induction IH as [|k ks Hk _ IH]; [done|]. cbn. by rewrite Hk, IH. Qed.

Lemma lift {A} (P : A -> tree -> Prop) (Q : A -> dtree -> Prop) l ks : Forall2 P l ks ->
  (forall x k, k ∈ ks -> x ∈ l -> P x k -> exists d, shape d = k /\ Q x d) -> exists ds, map shape ds = ks /\ Forall2 Q l ds.
Proof.
  induction 1 as [|x k l ks Hx _ IH]; intros H; [by exists []|]. destruct (H x k) as (d & <- & Hd); [by left|by left|done|].
  destruct IH as (ds & <- & Hds); [intros y k' ? ?; apply H; by right|]. exists (d :: ds). split; [done|by constructor].
Qed.

Section Deco.
  Context (W : world) (names : nat -> list Z) (known : list Z -> bool) (st : sst).
  Notation env := (load_env W names).
  Notation base g := (base_of W (f_tdp g)).
  Hypothesis HW : wf_world W.
  Hypothesis HP : plain_world W names known.
  Hypothesis HE : LoadSpec.env_ok env.

  Inductive local : dtree -> Prop :=
    | l_struct i e g a o ks x n k t : stands st i g a x n -> f_type g = T_STRUCT -> is_ref n = false ->
        f_tdp g = Some k -> w_tds W !! k = Some t ->
        Forall2 (fun f d => d_e d = Some (a, k) /\ d_g d = f /\ d_a d = a + f_off f /\ d_o d = f_off f) (t_fields t) ks -> local (D i e g a o ks)
    | l_array i e g a o ks x n cnt : stands st i g a x n -> f_type g = T_ARRAY -> is_ref n = false -> in_use W e g cnt ->
        Forall2 (fun j d => d_e d = None /\ d_g d = part g /\ d_a d = a + j * f_size (part g) /\ d_o d = j * f_size (part g)) (seqZ 0 cnt) ks ->
        local (D i e g a o ks)
    | l_pointer i e g a o x n p d : stands st i g a x n -> f_type g = T_POINTER -> is_ref n = false -> i_null x = false ->
        w_ptr W a = Some p -> p <> 0 -> f_aux g <> T_VOID -> f_aux g <> T_NONE ->
        d_e d = None -> d_g d = content W g -> d_a d = p -> d_o d = 0 -> local (D i e g a o [d])
    | l_bare i e g a o x n : stands st i g a x n -> bare W st g a x n -> local (D i e g a o []).

  (** Descriptors met on the way. *)
  Definition fine (g : fd) : Prop :=
    plain_fd W g /\ LoadSpec.stype_ok env (load_stype g) /\
    (f_type g = T_ARRAY -> (1 <= f_dims g)%nat /\ 0 <= f_dim0 g /\ f_aux g <> T_ARRAY) /\
    (f_type g = T_POINTER -> target_type (f_aux g) /\ (f_aux g = T_POINTER -> target_type (base g))) /\
    (f_type g = T_ARRAY -> f_aux g = T_POINTER -> f_dim0 g <> 0 -> target_type (base g)) /\
    f_type g <> T_NONE /\ union_type (f_type g) = false.

  Lemma td_kind_base k : Load.td_kind env k = load_kind (base_of W k).
  Proof.
    unfold Load.td_kind, Load.get_td, base_of, load_env. destruct k as [k|]; [|done]. cbn. rewrite list_lookup_fmap.
    destruct (w_tds W !! k) as [t|] eqn:E; done.
  Qed.

  Lemma kind_size_of c : 0 <= c <= T_NAMED_ANON_UNION -> Load.kind_size (load_kind c) = type_size c.
  Proof.
    intros H. unfold T_NAMED_ANON_UNION in H. 
    assert (c = 0 \/ c = 1 \/ c = 2 \/ c = 3 \/ c = 4 \/ c = 5 \/ c = 6 \/ c = 7 \/ c = 8 \/ c = 9 \/ c = 10 \/ c = 11 \/ c = 12 \/ c = 13 \/ c = 14 \/ c = 15 \/
      c = 16 \/ c = 17 \/ c = 18 \/ c = 19 \/ c = 20 \/ c = 21 \/ c = 22 \/ c = 23 \/ c = 24 \/ c = 25 \/ c = 26 \/ c = 27 \/ c = 28 \/ c = 29 \/ c = 30 \/ c = 31) as Hc by lia.
    repeat destruct Hc as [->|Hc]; try reflexivity. subst c. reflexivity.
  Qed.

  Lemma part_type g : fine g -> f_type g = T_ARRAY -> f_dim0 g <> 0 -> load_stype (part g) = Load.elem_ty env (load_stype g) (f_dim0 g).
  Proof.
    intros ((_ & _ & _ & Nb & _ & _ & Pa & _) & _ & Ar & _) Ta Nz. destruct (Pa Ta) as (Na & Eb & _). destruct (Ar Ta) as (D1 & D0 & Nar).
    unfold load_stype, Load.elem_ty, part. rewrite Ta. destruct (f_dims g) as [|[|n]] eqn:Ed; [lia| |].
    - cbn. rewrite td_kind_base, <- Eb. destruct (Z.eqb_spec (f_aux g) T_BITFIELD); [done|]. reflexivity.
    - cbn. reflexivity.
  Qed.

  Lemma content_type g : fine g -> f_type g = T_POINTER -> load_stype (content W g) = Load.f_ty (Load.target_fd env (load_stype g)).
  Proof.
    intros ((_ & _ & _ & Nb & _ & _ & _) & _ & _ & Pt & _) Tp. destruct (Pt Tp) as [(_ & _ & R) _].
    unfold load_stype, Load.target_fd, content. cbn. destruct (Z.eqb_spec (f_aux g) T_BITFIELD); [done|]. rewrite td_kind_base. f_equal.
    unfold Load.target_size, unit_size. rewrite kind_size_of by done. destruct (type_size (f_aux g) =? 0); [|done].
    unfold Load.get_td, load_env. destruct (f_tdp g) as [k|]; [|done]. cbn. rewrite list_lookup_fmap. destruct (w_tds W !! k) as [t|]; [done|]. done.
  Qed.

  Lemma fine_field k t f : w_tds W !! k = Some t -> f ∈ t_fields t -> fine f.
  Proof.
    intros Et Hf. destruct (HP k t Et) as (P1 & _). rewrite Forall_forall in P1. pose proof (P1 f Hf) as Pf.
    destruct (HW k t Et) as (_ & W1 & _). rewrite Forall_forall in W1. destruct (W1 f Hf) as ((_ & _ & Ok) & Np).
    split; [done|]. split.
    { destruct (HE k (load_td names t)) with (f := load_fd names f) as (_ & _ & S); [|by apply elem_of_list_In, in_map, elem_of_list_In|done].
      unfold load_env. rewrite list_lookup_fmap, Et. done. }
    destruct Pf as (Q1 & Q2 & _ & _ & _ & _ & Q3 & _). split; [|split; [|split; [|done]]].
    - intros Ta. rewrite Ta in Ok. cbn in Ok. tauto.
    - intros Tp. rewrite Tp in Ok. cbn in Ok. destruct Ok as (_ & _ & Ok). destruct (Ok eq_refl) as (_ & _ & ? & ?). done.
    - intros Ta Tp Nz. destruct (Q3 Ta) as (_ & Eb & _). rewrite Ta in Ok. cbn in Ok. destruct Ok as (_ & _ & _ & Ok). destruct (Ok Nz) as (_ & _ & Op).
      rewrite <- Eb. by destruct (Op Tp) as (_ & _ & ? & _).
  Qed.

  Lemma fine_part g : fine g -> f_type g = T_ARRAY -> f_dim0 g <> 0 -> fine (part g).
  Proof.
    intros F Ta Nz. pose proof (part_type g F Ta Nz) as Pt. destruct F as ((P1 & P2 & P3 & P4 & P5 & P6 & P7 & P8 & P9) & S & Ar & Po & Ap & _).
    destruct (P7 Ta) as (Q1 & Q2 & Q3). destruct (Ar Ta) as (D1 & D0 & Nar).
    assert (0 < f_dim0 g) as Lt by lia.
    destruct (LoadSafe.elem_ok env (load_stype g) (f_dim0 g)) as [S' Es]; [done| | |done|].
    { unfold load_stype. cbn. rewrite Ta. done. }
    { unfold load_stype. cbn. destruct (f_dims g); [lia|done]. }
    rewrite <- Pt in S', Es. unfold load_stype at 1 2 in Es. cbn [Load.s_size] in Es.
    assert (f_type (part g) = (if Nat.eqb (f_dims g) 1 then f_aux g else T_ARRAY)) as E1 by done.
    assert (f_aux (part g) = (if Nat.eqb (f_dims g) 1 then f_base g else f_aux g)) as E2 by done.
    assert (f_tdp (part g) = f_tdp g) as E3 by done.
    assert (f_type (part g) <> T_NONE /\ union_type (f_type (part g)) = false) as [G1 G2] by (rewrite E1; by destruct (Nat.eqb _ _)).
    split; [|split; [done|split; [|split; [|split; [|done]]]]].
    - split; [done|]. split; [done|]. rewrite E2, E3. split; [by destruct (Nat.eqb _ _); rewrite ?Q2|]. split; [by destruct (Nat.eqb _ _); rewrite ?Q2|].
      split; [done|]. split; [done|]. rewrite E1. split; [|split].
      + destruct (Nat.eqb_spec (f_dims g) 1); [done|]. intros _. split; [done|]. split; [exact Q2|].
        intros _ E0. apply (Q3 Nz). rewrite Es, E0. lia.
      + unfold nonempty. rewrite E3. destruct (Nat.eqb_spec (f_dims g) 1); [|done]. intros Ea. rewrite Q2. by apply P9.
      + unfold nonempty. rewrite E3. destruct (Nat.eqb_spec (f_dims g) 1); [|done]. rewrite Q2. intros Eb _. rewrite Eb. by exists 8.
    - rewrite E1, E2. destruct (Nat.eqb_spec (f_dims g) 1) as [E|E]; [done|]. intros _. unfold part. cbn [f_dims f_dim0]. rewrite (proj2 (Nat.eqb_neq _ _) E). split; [lia|done].
    - rewrite E1, E2, E3. destruct (Nat.eqb_spec (f_dims g) 1); [|done]. intros Ea. rewrite Q2. split; [by apply Ap|]. intros _. by apply Ap.
    - rewrite E1, E2, E3. destruct (Nat.eqb_spec (f_dims g) 1); [done|]. intros _ Ea _. by apply Ap.
  Qed.

  Lemma fine_content g : fine g -> f_type g = T_POINTER -> f_aux g <> T_NONE -> fine (content W g).
  Proof.
    intros F Tp Na. pose proof (content_type g F Tp) as Ct. destruct F as ((P1 & P2 & P3 & P4 & P5 & P6 & P7 & P8 & P9) & S & Ar & Po & _).
    destruct (Po Tp) as [(T1 & T2 & T3) T4].
    split; [|split; [|split; [|split; [|split; [|done]]]]].
    - split; [done|]. split; [done|]. unfold nonempty, content. cbn [f_type f_aux f_tdp f_base f_dim0 f_size]. do 4 (split; [done|]). split; [done|]. split; [done|].
      intros Eb _. rewrite Eb. by exists 8.
    - rewrite Ct. unfold LoadSpec.stype_ok in S. unfold load_stype in S at 2 3. cbn [Load.s_kind Load.s_size] in S. rewrite Tp in S. cbn in S. destruct S as (S0 & S1 & S2 & S3).
      destruct S2 as (K1 & K2 & K3). unfold LoadSpec.stype_ok, Load.target_fd. cbn [Load.f_ty Load.s_size Load.s_kind Load.s_td Load.s_aux load_stype]. split; [done|].
      destruct (load_kind (f_aux g)) eqn:Ek; try done. split; [exact K3|]. split; [by apply S3|].
      rewrite td_kind_base in *. intros _. by apply S3.
    - cbn. done.
    - cbn. intros Ea. split; [by apply T4|]. intros _. by apply T4.
    - cbn. done.
  Qed.

  Lemma decorate t : forall e g a o, describes W st e g a t -> fine g ->
    exists d, shape d = t /\ d_e d = e /\ d_g d = g /\ d_a d = a /\ d_o d = o /\ Forall (fun x => local x /\ fine (d_g x)) (flat d).
  Proof.
    induction t as [i ks IH] using tree_ind'. intros e g a o H F. rewrite Forall_forall in IH.
    assert (Gather : forall (l : list dtree), Forall (fun x => Forall (fun y => local y /\ fine (d_g y)) (flat x)) l ->
      Forall (fun y => local y /\ fine (d_g y)) (concat (map flat l))).
    { induction 1 as [|x l Hx _ IHl]; [constructor|]. cbn. apply Forall_app. done. }
    inversion H as [e' g' a' i' ks' x n k t S Ty Nr Etd Et FF E1 E2 E3 E4| e' g' a' i' ks' x n cnt S Ty Nr U FF E1 E2 E3 E4|e' g' a' i' x n h s S Ty|e' g' a' i' x n S Ty
      |e' g' a' i' x n p s S Ty Nr Nn Ep Np A1 A2 Ds E1 E2 E3 E4|e' g' a' i' x n S B E1 E2 E3 E4]; subst.
    - destruct (lift _ (fun f d => (d_e d = Some (a, k) /\ d_g d = f /\ d_a d = a + f_off f /\ d_o d = f_off f) /\ Forall (fun x => local x /\ fine (d_g x)) (flat d)) _ _ FF) as (ds & <- & Fd).
      { intros f c Hc Hf Hd. destruct (IH c Hc _ _ _ (f_off f) Hd) as (d & A1 & A2 & A3 & A4 & A5 & A6); [by eapply fine_field|]. exists d. done. }
      exists (D i e g a o ds). do 5 (split; [done|]). cbn [flat]. constructor.
      + split; [|done]. eapply l_struct; try done. eapply Forall2_impl; [exact Fd|]. by intros ? ? [Q _].
      + apply Gather. clear -Fd. induction Fd as [|? ? ? ? [_ Q] _ IHF]; by constructor.
    - assert (cnt <= 0 \/ f_dim0 g <> 0) as Dn.
      { unfold in_use in U. destruct (Z.eqb_spec (f_dim0 g) 0); [left; lia|by right]. }
      destruct (lift _ (fun j d => (d_e d = None /\ d_g d = part g /\ d_a d = a + j * f_size (part g) /\ d_o d = j * f_size (part g)) /\ Forall (fun x => local x /\ fine (d_g x)) (flat d)) _ _ FF) as (ds & <- & Fd).
      { intros j c Hc Hj Hd. assert (f_dim0 g <> 0) as Nz by (destruct Dn; [apply elem_of_seqZ in Hj; lia|done]).
        destruct (IH c Hc _ _ _ (j * f_size (part g)) Hd) as (d & A1 & A2 & A3 & A4 & A5 & A6); [by apply fine_part|]. exists d. done. }
      exists (D i e g a o ds). do 5 (split; [done|]). cbn [flat]. constructor.
      + split; [|done]. eapply l_array; try done. eapply Forall2_impl; [exact Fd|]. by intros ? ? [Q _].
      + apply Gather. clear -Fd. induction Fd as [|? ? ? ? [_ Q] _ IHF]; by constructor.
    - exfalso. destruct F as (_ & _ & _ & _ & _ & _ & F). congruence.
    - exfalso. destruct F as (_ & _ & _ & _ & _ & _ & F). congruence.
    - destruct (IH s) with (e := @None (Z * nat)) (g := content W g) (a := p) (o := 0) as (d & A3 & A4 & A5 & A6 & A7 & A8); [left|done|by apply fine_content|].
      exists (D i e g a o [d]). rewrite <- A3. do 5 (split; [done|]). cbn [flat map concat]. rewrite app_nil_r. constructor; [|done]. split; [|done]. by eapply l_pointer.
    - exists (D i e g a o []). do 5 (split; [done|]). cbn. constructor; [|done]. split; [|done]. by eapply l_bare.
  Qed.
End Deco.
