(** The number of nodes mr_save makes (src/mr_save.c:1553-1591) has a bound. *)
From stdpp Require Import sets.
From Verif Require Import Base Ptrs ChildrenProof Save SaveForest SaveSpec SaveInv SaveSteps SaveRun SaveTop SaveTotalSpec SaveTotal.
Local Open Scope Z_scope.

Lemma value_part g : (1 <= f_dims g)%nat -> f_type g = T_ARRAY -> f_aux g <> T_ARRAY ->
  value_type (part g) = value_type g /\ (if f_type (part g) =? T_ARRAY then f_base (part g) else f_aux (part g)) = f_base g /\
  ((f_type (part g) = T_ARRAY /\ f_dims (part g) = (f_dims g - 1)%nat) \/ (f_type (part g) <> T_ARRAY /\ f_dims g = 1%nat)).
Proof.
  intros L T A. unfold value_type, part. rewrite T. cbn [f_type f_aux f_base f_dims]. destruct (Nat.eqb_spec (f_dims g) 1) as [E|E].
  - rewrite (proj2 (Z.eqb_neq _ _) A). split; [done|]. split; [done|]. by right.
  - split; [done|]. split; [done|]. by left.
Qed.

Section Size.
  Context (W : world) (HW : wf_world W) (root : fd) (a0 : Z) (HR : wf_root W root) (HT : tame W root a0).
  Notation vis := (visits W root a0).
  Context (rank : nat -> nat) (Hrank : forall k t f j, w_tds W !! k = Some t -> f ∈ t_fields t ->
      value_type f = T_STRUCT \/ union_type (value_type f) = true -> f_tdp f = Some j -> (rank j < rank k)%nat).

  (** ** Descriptors *)
  Definition all_fds : list fd := root :: concat (map t_fields (w_tds W)).
  Definition extent : nat := max_list (map (fun f => Nat.max (f_dims f) (Z.to_nat (f_dim0 f))) all_fds).
  Lemma extent_le f : f ∈ all_fds -> (f_dims f <= extent)%nat /\ (Z.to_nat (f_dim0 f) <= extent)%nat.
  Proof.
    intros H. assert (Nat.max (f_dims f) (Z.to_nat (f_dim0 f)) <= extent)%nat by (apply max_list_elem_of_le, elem_of_list_fmap; eauto). lia.
  Qed.
  Lemma field_fds k t f : w_tds W !! k = Some t -> f ∈ t_fields t -> f ∈ all_fds.
  Proof.
    intros E H. right. apply elem_of_list_In, in_concat. exists (t_fields t). split; [|by apply elem_of_list_In].
    apply in_map. apply elem_of_list_In. by eapply elem_of_list_lookup_2.
  Qed.

  Record fam (f : fd) : Prop := {
    fm_ok : fd_ok W f;
    fm_plain : plain W f;
    fm_dims : (f_dims f <= extent)%nat;
    fm_dim0 : (Z.to_nat (f_dim0 f) <= extent)%nat;
    fm_ref : forall r, f_szf f = Some r -> size_ref W root r }.

  Lemma fam_field k t f : w_tds W !! k = Some t -> f ∈ t_fields t -> fam f.
  Proof.
    intros E H. destruct (extent_le f (field_fds _ _ _ E H)). destruct (HW k t E) as (_ & Fa & _). rewrite Forall_forall in Fa. destruct (Fa f H) as [? _].
    constructor; try done; [by eapply (tm_plain _ _ _ HT)|]. intros r Hr. right. exists k, t, f. done.
  Qed.

  Lemma cell g : fam g -> f_type g = T_ARRAY -> f_dim0 g <> 0 -> f_size (part g) <> 0.
  Proof.
    intros F T Dz. destruct (fm_ok _ F) as (Fs & _ & Fo). rewrite T, Z.eqb_refl in Fo. destruct Fo as (Fd & F0 & _). destruct (fm_plain _ F) as (_ & _ & _ & P4).
    specialize (P4 T Dz). cbn. intros E. replace (Z.of_nat (f_dims g)) with (Z.succ (Z.of_nat (f_dims g - 1))) in P4 by lia.
    rewrite Z.pow_succ_r in P4 by lia. rewrite <- Z.div_div in P4 by (try apply Z.pow_pos_nonneg; lia). rewrite E, Z.div_0_l in P4; [lia|].
    apply Z.pow_nonzero; lia.
  Qed.

  Lemma fam_part g : fam g -> f_type g = T_ARRAY -> f_dim0 g <> 0 -> fam (part g).
  Proof.
    intros F T Dz. destruct (fm_ok _ F) as (Fs & _ & Fo). rewrite T, Z.eqb_refl in Fo. destruct Fo as (Fd & F0 & Fa & _).
    destruct (value_part g Fd T Fa) as (V1 & V2 & V3). destruct (fm_plain _ F) as (P1 & P2 & P3 & P4). constructor.
    - apply fd_ok_part; [apply F|done|done].
    - split; [done|]. rewrite V1, V2. split; [done|]. rewrite T in P3. split; [done|]. intros Tp _. specialize (P4 T Dz).
      destruct V3 as [[_ Dp]|[? _]]; [|done]. rewrite Dp. cbn [part f_size f_dim0].
      replace (Z.of_nat (f_dims g)) with (Z.succ (Z.of_nat (f_dims g - 1))) in P4 by lia.
      rewrite Z.pow_succ_r in P4 by lia. rewrite <- Z.div_div in P4 by (try apply Z.pow_pos_nonneg; lia). done.
    - pose proof (fm_dims _ F). cbn [part f_dims]. destruct (Nat.eqb (f_dims g) 1); lia.
    - apply (fm_dim0 _ F).
    - apply (fm_ref _ F).
  Qed.

  Lemma fam_content g : fam g -> f_type g = T_POINTER -> fam (content W g) /\ f_aux g <> T_ARRAY.
  Proof.
    intros F T. destruct (fm_ok _ F) as (Fs & _ & Fo). rewrite T in Fo. cbn in Fo. destruct Fo as (_ & _ & Fo). destruct (Fo eq_refl) as (_ & _ & Tt & Tb).
    assert (f_aux g <> T_ARRAY) as Na by apply Tt. split; [|done].
    destruct (fm_plain _ F) as (P1 & P2 & P3 & P4). unfold value_type in P3. rewrite T in P3. cbn in P3.
    assert ((f_aux g =? T_ARRAY) = false) as Nb by (by apply Z.eqb_neq).
    assert (exists u, unit_size W (f_aux g) (f_tdp g) = Some u) as (u & Hu).
    { unfold unit_size. destruct (type_size (f_aux g) =? 0); [|eauto]. destruct (f_tdp g) as [k|] eqn:E; [|eauto]. destruct (P1 k eq_refl) as [t ->]. cbn. eauto. }
    pose proof (unit_size_bound W HW _ _ _ Hu) as Bu.
    constructor; unfold content; rewrite Hu; cbn [f_type f_aux f_base f_size f_tdp f_dim0 f_dims f_szf].
    - split; [done|]. split; [done|]. cbn [f_type f_aux f_base f_size f_tdp f_dim0 f_dims f_szf]. rewrite Nb. split; [done|].
      split; [intros _; exists u; split; [done|lia]|]. intros Tk. cbn. split; [done|]. split; [done|]. split; [auto|].
      intros _. auto.
    - unfold plain, value_type. cbn [f_type f_aux f_base f_size f_tdp f_dim0 f_dims f_szf]. rewrite Nb. split; [done|].
      split; [auto|]. split; [|done]. intros _ Hb E. unfold base_of in Hb. rewrite E in Hb. done.
    - lia.
    - lia.
    - done.
  Qed.

  Lemma use_pos e g cnt i : in_use W e g cnt -> 0 <= i < cnt -> f_dim0 g <> 0.
  Proof. unfold in_use. intros H L E. rewrite E in H. cbn in H. lia. Qed.
  Lemma use_le e g cnt : fd_ok W g -> f_type g = T_ARRAY -> in_use W e g cnt -> 0 <= cnt <= f_dim0 g.
  Proof.
    intros (_ & _ & Fo) T. rewrite T, Z.eqb_refl in Fo. destruct Fo as (_ & F0 & _). unfold in_use. destruct (f_dim0 g =? 0); [intros ->; lia|].
    destruct (negb _ || _); [intros ->; lia|]. destruct (f_szf g); [intros [? _]; lia|intros ->; lia].
  Qed.

  Lemma vis_fam e g a : vis e g a -> fam g.
  Proof.
    induction 1 as [|e g a k t f _ IH T E Et Hf|e g a cnt i _ IH T U L|e g a h _ IH T C|e g a p _ IH T P Pz N1 N2].
    - destruct HR as [Fo _]. destruct (extent_le root ltac:(left)). pose proof (tm_root _ _ _ HT) as Pr. constructor; try (by destruct root).
      intros r Hr. left. by destruct root.
    - by eapply fam_field.
    - apply fam_part; [done|done|by eapply use_pos].
    - unfold chosen in C. apply bind_Some in C as (k & Ek & C). apply bind_Some in C as (t & Et & C). apply bind_Some in C as (d & Ed & C).
      eapply fam_field; [exact Et|]. by eapply elem_of_list_lookup_2.
    - by apply fam_content.
  Qed.

  (** ** The measure *)
  Definition second (f : fd) : Z := if f_type f =? T_ARRAY then f_base f else f_aux f.
  Definition stem (f : fd) : nat :=
    if (value_type f =? T_STRUCT) || union_type (value_type f) then match f_tdp f with Some k => S (rank k) | None => 0 end else 0.
  Definition tail (f : fd) : nat :=
    if value_type f =? T_POINTER then (if second f =? T_POINTER then 2 else 1) else if value_type f =? T_STRING then 1 else 0.
  Definition meas (f : fd) : nat := ((extent + 3) * stem f + (if (f_type f =? T_ARRAY)%Z then f_dims f else 0) + tail f)%nat.
  Definition top_rank : nat := max_list (map rank (seq 0 (length (w_tds W)))).
  Definition meas_max : nat := ((extent + 3) * S top_rank + extent + 2)%nat.

  Lemma tail_le f : (tail f <= 2)%nat.
  Proof. unfold tail. destruct (_ =? _); [destruct (_ =? _); lia|]. destruct (_ =? _); lia. Qed.

  Lemma meas_le f : fam f -> (meas f <= meas_max)%nat.
  Proof.
    intros F. unfold meas, meas_max. assert (stem f <= S top_rank)%nat as Ls.
    { unfold stem. destruct (_ || _); [|lia]. destruct (f_tdp f) as [k|] eqn:E; [|lia]. destruct (fm_plain _ F) as (P1 & _). destruct (P1 k E) as [t Et].
      apply le_n_S. apply max_list_elem_of_le, elem_of_list_fmap. exists k. split; [done|]. apply elem_of_seq. apply lookup_lt_Some in Et. lia. }
    pose proof (fm_dims _ F). pose proof (tail_le f). assert ((if (f_type f =? T_ARRAY)%Z then f_dims f else 0) <= extent)%nat by (destruct (f_type f =? T_ARRAY); lia). nia.
  Qed.

  Lemma meas_member k t f g : w_tds W !! k = Some t -> f ∈ t_fields t -> f_type g = T_STRUCT \/ union_type (f_type g) = true -> f_tdp g = Some k ->
    (meas f < meas g)%nat.
  Proof.
    intros Et Hf Tg Eg. pose proof (fm_dims _ (fam_field _ _ _ Et Hf)) as Ld. pose proof (tail_le f).
    assert (f_type g <> T_ARRAY) as Na by (destruct Tg as [->|Tg]; [done|]; intros E; by rewrite E in Tg).
    assert (value_type g = f_type g) as Vg by (unfold value_type; by rewrite (proj2 (Z.eqb_neq _ _) Na)).
    assert (stem g = S (rank k)) as Sg.
    { unfold stem. rewrite Vg, Eg. destruct Tg as [->| ->]; [done|]. by rewrite orb_true_r. }
    assert (stem f <= rank k)%nat as Sf.
    { unfold stem. destruct ((value_type f =? T_STRUCT) || union_type (value_type f)) eqn:E; [|lia]. destruct (f_tdp f) as [j|] eqn:Ej; [|lia].
      apply (Hrank k t f j); try done. apply orb_true_iff in E as [E|E]; [left; lia|by right]. }
    unfold meas. rewrite Sg. assert ((if (f_type f =? T_ARRAY)%Z then f_dims f else 0) <= extent)%nat by (destruct (f_type f =? T_ARRAY); lia). nia.
  Qed.

  Lemma meas_part g : fd_ok W g -> f_type g = T_ARRAY -> (meas (part g) < meas g)%nat.
  Proof.
    intros (_ & _ & Fo) T. rewrite T, Z.eqb_refl in Fo. destruct Fo as (Fd & _ & Fa & _). destruct (value_part g Fd T Fa) as (V1 & V2 & V3).
    unfold meas, stem, tail, second. rewrite V1, V2, T. cbn [part f_tdp]. rewrite Z.eqb_refl.
    destruct V3 as [[E1 E2]|[E1 E2]].
    - rewrite E1, Z.eqb_refl, E2. lia.
    - rewrite (proj2 (Z.eqb_neq _ _) E1), E2. lia.
  Qed.

  Lemma meas_content g : fam g -> f_type g = T_POINTER -> matchable (f_aux g) = false -> (meas (content W g) < meas g)%nat.
  Proof.
    intros F T M. destruct (fam_content g F T) as [_ Na]. unfold matchable in M. apply negb_false_iff in M. rewrite (proj2 (Z.eqb_neq _ _) Na) in M. cbn in M.
    unfold meas, stem, tail, second, value_type. cbn [content f_type f_aux f_tdp f_base f_dims]. rewrite T. cbn [Z.eqb Pos.eqb T_POINTER T_ARRAY].
    apply orb_true_iff in M as [M|M]; apply Z.eqb_eq in M; rewrite M; cbn -[Nat.mul Nat.add base_of extent].
    - destruct (Z.eqb_spec (base_of W (f_tdp g)) T_POINTER) as [E|]; [|lia]. exfalso. unfold base_of in E. destruct (f_tdp g) as [k|]; [|done].
      destruct (w_tds W !! k) as [t|] eqn:Et; [|done]. by apply (tm_base _ _ _ HT _ _ Et).
    - lia.
  Qed.

  Lemma h_field e g a k t f : vis e g a -> f_type g = T_STRUCT -> f_tdp g = Some k -> w_tds W !! k = Some t -> f ∈ t_fields t -> (meas f < meas g)%nat.
  Proof. intros _ T E Et Hf. eapply meas_member; eauto. Qed.
  Lemma h_elem e g a : vis e g a -> f_type g = T_ARRAY -> f_dim0 g <> 0 -> (meas (part g) < meas g)%nat.
  Proof. intros V T _. apply meas_part; [|done]. by apply (fm_ok _ (vis_fam _ _ _ V)). Qed.
  Lemma h_member e g a h : vis e g a -> union_type (f_type g) = true -> chosen W a g = Some h -> (meas h < meas g)%nat.
  Proof.
    intros _ T C. unfold chosen in C. apply bind_Some in C as (k & Ek & C). apply bind_Some in C as (t & Et & C). apply bind_Some in C as (d & Ed & C).
    eapply meas_member; [exact Et| |by right|done]. by eapply elem_of_list_lookup_2.
  Qed.
  Lemma h_string e g a : vis e g a -> f_type g = T_STRING -> (0 < meas g)%nat.
  Proof. intros _ T. unfold meas, tail, value_type. rewrite T. cbn -[Nat.mul Nat.add extent]. lia. Qed.
  Lemma h_known e g a k : vis e g a -> f_tdp g = Some k -> is_Some (w_tds W !! k).
  Proof. intros V. destruct (fm_plain _ (vis_fam _ _ _ V)) as (P & _). apply P. Qed.
  Lemma h_struct e g a : vis e g a -> f_type g = T_STRUCT -> f_tdp g <> None.
  Proof. intros V T. destruct (fm_plain _ (vis_fam _ _ _ V)) as (_ & P & _). apply P. unfold value_type. by rewrite T. Qed.
  Lemma h_cell e g a : vis e g a -> f_type g = T_ARRAY -> f_dim0 g <> 0 -> f_size (part g) <> 0.
  Proof. intros V. apply cell. by eapply vis_fam. Qed.
  Lemma h_ref e g a r : vis e g a -> f_szf g = Some r -> size_ref W root r.
  Proof. intros V. by apply (fm_ref _ (vis_fam _ _ _ V)). Qed.

  (** ** The nodes stand for data looked at *)
  Section State.
    Context (st : sst) (K : nat -> list nat) (D : nat -> fd) (cur : nat) (L : FI W a0 (root_fd root) st K D cur).
    Let I := l_inv _ _ _ _ _ _ _ L.
    Let R := v_for _ _ _ _ _ I.

    Lemma n_has i : (i < length (lns st))%nat -> exists x, s_info st !! i = Some x.
    Proof. intros Li. apply lookup_lt_is_Some_2. by rewrite (v_len _ _ _ _ _ I). Qed.
    Lemma n_type i x : i <> 0%nat -> s_info st !! i = Some x -> f_type (D i) = i_type x.
    Proof. intros Iz E. symmetry. apply (v_id _ _ _ _ _ I _ _ Iz E). Qed.

    Lemma kid_encl p c px : c ∈ K p -> s_info st !! p = Some px ->
      encl st D c = if i_type px =? T_STRUCT then match f_tdp (D p) with Some k => Some (i_data px, k) | None => None end else None.
    Proof.
      intros Hc Ep. destruct (kid_lt _ _ R _ _ Hc) as (_ & _ & Pz & _ & E). unfold encl. rewrite E, Ep. by destruct (Nat.eqb_spec p 0).
    Qed.

    (** Where the child of a node comes from. *)
    Inductive child (p c : nat) (px xc : info) : Prop :=
      | ch_field k t : i_type px = T_STRUCT -> f_tdp (D p) = Some k -> w_tds W !! k = Some t -> D c ∈ t_fields t ->
          i_data xc = i_data px + f_off (D c) -> child p c px xc
      | ch_elem cnt j : i_type px = T_ARRAY -> in_use W (encl st D p) (D p) cnt -> 0 <= j < cnt -> D c = part (D p) ->
          i_data xc = i_data px + j * f_size (part (D p)) -> child p c px xc
      | ch_member : union_type (i_type px) = true -> chosen W (i_data px) (D p) = Some (D c) -> i_data xc = i_data px + f_off (D c) -> child p c px xc
      | ch_content : i_type px = T_POINTER -> w_ptr W (i_data px) = Some (i_data xc) -> i_data xc <> 0 -> D c = content W (D p) ->
          f_aux (D p) <> T_VOID -> f_aux (D p) <> T_NONE -> child p c px xc
      | ch_string : i_type px = T_STRING -> w_ptr W (i_data px) = Some (i_data xc) -> i_type xc = T_CHAR_ARRAY -> child p c px xc.

    Lemma child_of p c px xc : c ∈ K p -> s_info st !! p = Some px -> s_info st !! c = Some xc -> child p c px xc.
    Proof.
      intros Hc Ep Ec. destruct (kid_lt _ _ R _ _ Hc) as (Cz & Lc & Pz & Lp & E).
      pose proof (proj2 (v_node _ _ _ _ _ I p px Pz (not_elem_of_nil _) Ep)) as No. unfold node_body in No.
      assert (K p <> []) as Kn by (intros Q; rewrite Q in Hc; by apply elem_of_nil in Hc).
      destruct (Z.eqb_spec (i_type px) T_STRUCT) as [T|T1].
      { destruct No as (k & t & E1 & E2 & F). apply elem_of_list_lookup in Hc as [n Hn]. destruct (Forall2_lookup_l _ _ _ _ _ F Hn) as (f & Hf & Df & y & Ey & Dy).
        rewrite Ec in Ey. injection Ey as <-. subst f. eapply ch_field; try done. by eapply elem_of_list_lookup_2. }
      destruct (Z.eqb_spec (i_type px) T_ARRAY) as [T|T2].
      { destruct No as (cnt & U & F). apply elem_of_list_lookup in Hc as [n Hn]. destruct (Forall2_lookup_l _ _ _ _ _ F Hn) as (j & Hj & Df & y & Ey & Dy).
        rewrite Ec in Ey. injection Ey as <-. eapply (ch_elem _ _ _ _ cnt j); try done. apply elem_of_list_lookup_2, elem_of_seqZ in Hj. lia. }
      destruct (union_type (i_type px)) eqn:T3.
      { case_match eqn:Eg; [|done]. destruct No as (c' & Ek & Df & y & Ey & Dy). rewrite Ek in Hc. apply elem_of_list_singleton in Hc as <-.
        rewrite Ec in Ey. injection Ey as <-. subst. by apply ch_member. }
      destruct (Z.eqb_spec (i_type px) T_POINTER) as [T|T4].
      { destruct (v_one _ _ _ _ _ I p px Pz Ep) as [?|(c' & xc' & Ek & Ec' & (W1 & W2 & W3) & Dc)]; [by rewrite T|done|]. rewrite Ek in Hc. apply elem_of_list_singleton in Hc as <-.
        rewrite Ec in Ec'. injection Ec' as <-.
        assert (followed px = true) as Fl.
        { destruct (Nat.lt_ge_cases p cur) as [Lq|Lq].
          - apply (l_before _ _ _ _ _ _ _ L p px Pz Ep T Lq). by left.
          - destruct (l_after _ _ _ _ _ _ _ L p px Ep T Lq). by left. }
        unfold followed in Fl. rewrite !andb_true_iff, !negb_true_iff in Fl. destruct Fl as (((_ & N1) & N2) & _). apply Z.eqb_neq in N1, N2.
        destruct (v_id _ _ _ _ _ I p px Pz Ep) as (_ & _ & Ax & _). specialize (Ax ltac:(by rewrite T)). rewrite Ax in N1, N2. apply ch_content; auto. }
      destruct (Z.eqb_spec (i_type px) T_STRING) as [T|T5].
      { destruct (v_one _ _ _ _ _ I p px Pz Ep) as [?|(c' & xc' & Ek & Ec' & (W1 & W2 & W3) & Dc)]; [by rewrite T|done|]. rewrite Ek in Hc. apply elem_of_list_singleton in Hc as <-.
        rewrite Ec in Ec'. injection Ec' as <-. rewrite T in W3. by apply ch_string. }
      destruct ((i_type px =? T_FUNC) || (i_type px =? T_FUNC_TYPE)); [by destruct No|done].
    Qed.

    Lemma leaf_kids i x : i <> 0%nat -> s_info st !! i = Some x -> i_type x = T_CHAR_ARRAY -> K i = [].
    Proof. intros Iz Ex T. pose proof (proj2 (v_node _ _ _ _ _ I i x Iz (not_elem_of_nil _) Ex)) as No. unfold node_body in No. rewrite T in No. done. Qed.

    Lemma all_vis i k : lev (parf (lns st)) i k -> i <> 0%nat -> forall x, s_info st !! i = Some x ->
      vis (encl st D i) (D i) (i_data x) \/ i_type x = T_CHAR_ARRAY.
    Proof.
      induction 1 as [i E|i k Np Lv IH]; intros Iz x Ex.
      - destruct (lookup_lt_is_Some_2 (lns st) i) as [n En]; [rewrite <- (v_len _ _ _ _ _ I); by eapply lookup_lt_Some|].
        rewrite (parf_lu _ _ _ En) in E. destruct (fo_root _ _ R i n Iz En E) as [-> _]. destruct (l_root _ _ _ _ _ _ _ L) as (D1 & x1 & E1 & A1).
        rewrite Ex in E1. injection E1 as <-. unfold encl. rewrite (l_par _ _ _ _ _ _ _ L). cbn. rewrite D1, A1. left. constructor.
      - assert (i < length (lns st))%nat as Li by (rewrite <- (v_len _ _ _ _ _ I); by eapply lookup_lt_Some).
        assert (i ∈ K (parf (lns st) i)) as Hk by (by apply (fo_in _ _ R)). remember (parf (lns st) i) as p eqn:Pp.
        destruct (kid_lt _ _ R _ _ Hk) as (_ & _ & Pz & Lp & _). destruct (n_has p Lp) as [px Ep].
        pose proof (kid_encl _ _ _ Hk Ep) as En. pose proof (n_type _ _ Pz Ep) as Tp.
        destruct (IH Pz px Ep) as [V|Tc]; [|rewrite (leaf_kids _ _ Pz Ep Tc) in Hk; by apply elem_of_nil in Hk].
        destruct (child_of _ _ _ _ Hk Ep Ex) as [k0 t T E1 E2 Hf Ed|cnt j T U Lj Ed1 Ed|T C Ed|T Wp Nz Ed N1 N2|T Wp Tx].
        + left. rewrite En, T, E1, Ed. cbn [Z.eqb Pos.eqb T_STRUCT]. eapply vi_field; [exact V|congruence|done|done|done].
        + left. rewrite En, T, Ed, Ed1. cbn [Z.eqb Pos.eqb T_STRUCT T_ARRAY]. eapply vi_elem; [exact V|congruence|done|done].
        + left. assert ((i_type px =? T_STRUCT) = false) as Ns by (apply Z.eqb_neq; intros Q; by rewrite Q in T).
          rewrite En, Ns, Ed. eapply vi_member; [exact V|congruence|done].
        + left. rewrite En, T, Ed. cbn [Z.eqb Pos.eqb T_STRUCT T_POINTER]. eapply vi_content; [exact V|congruence|done|done|done|done].
        + by right.
    Qed.
    Lemma node_vis i x : i <> 0%nat -> s_info st !! i = Some x -> i_type x <> T_CHAR_ARRAY -> vis (encl st D i) (D i) (i_data x).
    Proof.
      intros Iz Ex N. destruct (fo_lev _ _ R i Iz) as [k Lv]; [rewrite <- (v_len _ _ _ _ _ I); by eapply lookup_lt_Some|].
      destruct (all_vis i k Lv Iz x Ex); done.
    Qed.
  End State.

  (** ** Counting *)
  Context (P : list Z) (HP : forall e g a p, vis e g a -> f_type g = T_POINTER \/ f_type g = T_STRING -> w_ptr W a = Some p -> p ∈ P).
  Definition width : nat := (S (extent + max_list (map (fun t => length (t_fields t)) (w_tds W))))%nat.
  Fixpoint clan_max (d : nat) : nat := match d with O => 1 | S d => (1 + width * clan_max d)%nat end.
  Definition keys : list (Z * Z * option nat) :=
    concat (map (fun p => concat (map (fun t => map (fun k => (p, t, k)) (None :: map Some (seq 0 (length (w_tds W))))) (seqZ 0 32))) P).
  Definition node_max : nat := (1 + (1 + length keys) * clan_max meas_max)%nat.

  Lemma keys_in p t k : p ∈ P -> 0 <= t <= T_NAMED_ANON_UNION -> (forall j, k = Some j -> is_Some (w_tds W !! j)) -> (p, t, k) ∈ keys.
  Proof.
    intros Hp Ht Hk. unfold keys. apply elem_of_list_In, in_concat. eexists. split; [apply in_map; by apply elem_of_list_In|].
    apply in_concat. eexists. split; [apply (in_map _ _ t); apply elem_of_list_In, elem_of_seqZ; unfold T_NAMED_ANON_UNION in Ht; lia|].
    apply in_map. destruct k as [j|]; [right|by left]. apply in_map. apply in_seq. destruct (Hk j eq_refl) as [u E]. apply lookup_lt_Some in E. lia.
  Qed.

  Section Count.
    Context (st : sst) (K : nat -> list nat) (D : nat -> fd) (cur : nat) (L : FI W a0 (root_fd root) st K D cur).
    Let I := l_inv _ _ _ _ _ _ _ L.
    Let R := v_for _ _ _ _ _ I.

    Lemma kids_width i : (length (K i) <= width)%nat.
    Proof.
      destruct (decide (K i = [])) as [->|Kn]; [cbn; lia|]. destruct (K i) as [|c l] eqn:Ki; [done|].
      assert (c ∈ K i) as Hc by (rewrite Ki; left). destruct (kid_lt _ _ R _ _ Hc) as (_ & _ & Iz & Li & _). destruct (n_has _ _ _ _ L i Li) as [x Ex].
      rewrite <- Ki in *. clear Ki c l Hc. pose proof (proj2 (v_node _ _ _ _ _ I i x Iz (not_elem_of_nil _) Ex)) as No. unfold node_body in No.
      destruct (Z.eqb_spec (i_type x) T_STRUCT) as [T|T1].
      { destruct No as (k & t & E1 & E2 & F). rewrite (Forall2_length _ _ _ F). unfold width.
        assert (length (t_fields t) <= max_list (map (fun t => length (t_fields t)) (w_tds W)))%nat; [|lia]. apply max_list_elem_of_le, elem_of_list_fmap. exists t.
        split; [done|]. by eapply elem_of_list_lookup_2. }
      destruct (Z.eqb_spec (i_type x) T_ARRAY) as [T|T2].
      { destruct No as (cnt & U & F). rewrite (Forall2_length _ _ _ F), seqZ_length.
        pose proof (node_vis _ _ _ _ L i x Iz Ex ltac:(by rewrite T)) as V. apply vis_fam in V.
        pose proof (use_le _ _ _ (fm_ok _ V) ltac:(rewrite (n_type _ _ _ _ L _ _ Iz Ex); done) U). pose proof (fm_dim0 _ V). unfold width. lia. }
      destruct (union_type (i_type x)).
      { case_match; [|by rewrite No]. destruct No as (c & -> & _). unfold width. cbn. lia. }
      assert (ptr_or_str (i_type x) = true -> (length (K i) <= width)%nat) as Ps.
      { intros Ps. destruct (v_one _ _ _ _ _ I i x Iz Ex Ps) as [->|(c & xc & -> & _)]; unfold width; cbn; lia. }
      unfold ptr_or_str in Ps. destruct (i_type x =? T_POINTER); [auto|]. destruct (i_type x =? T_STRING); [auto|].
      destruct (_ || _); [destruct No as [-> _]|rewrite No]; cbn; lia.
    Qed.

    Fixpoint clan (d : nat) (h : nat) : list nat := match d with O => [h] | S d => h :: concat (map (clan d) (K h)) end.
    Lemma clan_le d h : (length (clan d h) <= clan_max d)%nat.
    Proof.
      revert h. induction d as [|d IH]; intros h; [done|]. cbn -[Nat.mul]. apply le_n_S. pose proof (kids_width h) as Kw.
      assert (forall l, length (concat (map (clan d) l)) <= length l * clan_max d)%nat as G.
      { induction l as [|c l IHl]; [done|]. cbn. rewrite app_length. specialize (IH c). lia. }
      specialize (G (K h)). nia.
    Qed.
    Lemma clan_here d h : h ∈ clan d h.
    Proof. destruct d; left. Qed.
    Lemma clan_kid d : forall h p c, p ∈ clan d h -> c ∈ K p -> c ∈ clan (S d) h.
    Proof.
      induction d as [|d IH]; intros h p c Hp Hc.
      - apply elem_of_list_singleton in Hp as ->. right. apply elem_of_list_In, in_concat. exists [c]. split; [|by left].
        apply in_map_iff. exists c. split; [done|]. by apply elem_of_list_In.
      - change (clan (S (S d)) h) with (h :: concat (map (clan (S d)) (K h))). right. apply elem_of_cons in Hp as [->|Hp].
        + apply elem_of_list_In, in_concat. exists (clan (S d) c). split; [by apply in_map, elem_of_list_In|]. apply elem_of_list_In, clan_here.
        + apply elem_of_list_In, in_concat in Hp as (l & Hl & Hp). apply in_map_iff in Hl as (b & <- & Hb). apply elem_of_list_In in Hp.
          apply elem_of_list_In, in_concat. exists (clan (S d) b). split; [by apply in_map|]. apply elem_of_list_In. by eapply IH.
    Qed.
    Lemma clan_more d : forall h i, i ∈ clan d h -> i ∈ clan (S d) h.
    Proof.
      induction d as [|d IH]; intros h i Hi; [apply elem_of_list_singleton in Hi as ->; left|].
      change (clan (S (S d)) h) with (h :: concat (map (clan (S d)) (K h))). apply elem_of_cons in Hi as [->|Hi]; [left|right].
      apply elem_of_list_In, in_concat in Hi as (l & Hl & Hi). apply in_map_iff in Hl as (b & <- & Hb). apply elem_of_list_In in Hi.
      apply elem_of_list_In, in_concat. exists (clan (S d) b). split; [by apply in_map|]. by apply elem_of_list_In, IH.
    Qed.
    Lemma clan_mono d d' h i : (d <= d')%nat -> i ∈ clan d h -> i ∈ clan d' h.
    Proof. induction 1; [done|]. intros. by apply clan_more, IHle. Qed.

    (** Nodes a clan begins with. *)
    Definition headb (h : nat) : bool :=
      Nat.eqb h 1 || match s_info st !! parf (lns st) h, s_info st !! h with
                     | Some px, Some x => negb (Nat.eqb (parf (lns st) h) 0) && ptr_or_str (i_type px) && matchable (i_type x)
                     | _, _ => false end.
    Definition node_key (h : nat) : Z * Z * option nat :=
      match s_info st !! h with
      | Some x => (i_data x, i_type x, if compound (i_type x) then f_tdp (D h) else None)
      | None => (0, 0, None)
      end.

    Lemma head_inv h : headb h = true -> h <> 1%nat -> exists p px x, h ∈ K p /\ s_info st !! p = Some px /\ s_info st !! h = Some x /\
      ptr_or_str (i_type px) = true /\ matchable (i_type x) = true.
    Proof.
      unfold headb. intros H N. rewrite (proj2 (Nat.eqb_neq _ _) N) in H. cbn in H. destruct (s_info st !! parf (lns st) h) as [px|] eqn:Ep; [|done].
      destruct (s_info st !! h) as [x|] eqn:Ex; [|done]. rewrite !andb_true_iff, negb_true_iff in H. destruct H as ((H1 & H2) & H3). apply Nat.eqb_neq in H1.
      exists (parf (lns st) h), px, x. split; [|done]. apply (fo_in _ _ R). split.
      - intros ->. by rewrite (parf_zero _ _ R) in H1.
      - split; [|done]. apply lookup_lt_Some in Ex. by rewrite (v_len _ _ _ _ _ I) in Ex.
    Qed.
    Lemma head_of p c px x : c ∈ K p -> s_info st !! p = Some px -> s_info st !! c = Some x -> ptr_or_str (i_type px) = true -> matchable (i_type x) = true ->
      headb c = true.
    Proof.
      intros Hc Ep Ex Ps M. destruct (kid_lt _ _ R _ _ Hc) as (_ & _ & Pz & _ & E). unfold headb. rewrite E, Ep, Ex, Ps, M.
      rewrite (proj2 (Nat.eqb_neq _ _) Pz). by rewrite orb_true_r.
    Qed.

    Lemma head_key h : headb h = true -> h <> 1%nat -> node_key h ∈ keys.
    Proof.
      intros H N. destruct (head_inv h H N) as (p & px & x & Hc & Ep & Ex & Ps & M). destruct (kid_lt _ _ R _ _ Hc) as (Hz & Lh & Pz & _ & E).
      unfold node_key. rewrite Ex. pose proof (n_type _ _ _ _ L _ _ Pz Ep) as Tp. pose proof (n_type _ _ _ _ L _ _ Hz Ex) as Th.
      assert (f_type (D p) = T_POINTER \/ f_type (D p) = T_STRING) as Tps.
      { rewrite Tp. unfold ptr_or_str in Ps. lia. }
      assert (i_type px <> T_CHAR_ARRAY) as Nc by (intros Q; by rewrite Q in Ps).
      pose proof (node_vis _ _ _ _ L _ _ Pz Ep Nc) as V.
      assert (i_type x <> T_CHAR_ARRAY -> fam (D h)) as Fh by (intros Q; eapply vis_fam, node_vis; done).
      apply keys_in.
      - destruct (child_of _ _ _ _ L _ _ _ _ Hc Ep Ex) as [? ? T|? ? T|T|T Wp|T Wp]; try (rewrite T in Ps; done); try by eapply HP.
        unfold union_type, ptr_or_str, T_UNION, T_ANON_UNION, T_NAMED_ANON_UNION, T_POINTER, T_STRING in *. lia.
      - destruct (child_of _ _ _ _ L _ _ _ _ Hc Ep Ex) as [? ? T|? ? T|T|T Wp Wz Dc|T Wp Tx]; try (rewrite T in Ps; done).
        + unfold union_type, ptr_or_str, T_UNION, T_ANON_UNION, T_NAMED_ANON_UNION, T_POINTER, T_STRING in *. lia.
        + rewrite <- Th, Dc. cbn. destruct (fm_ok _ (vis_fam _ _ _ V)) as (_ & _ & Fo). rewrite Tp, T in Fo. cbn in Fo. destruct Fo as (_ & _ & Fo).
          destruct (Fo eq_refl) as (_ & _ & (_ & _ & ?) & _). done.
        + rewrite Tx. unfold T_CHAR_ARRAY, T_NAMED_ANON_UNION. lia.
      - intros j Ej. destruct (compound (i_type x)) eqn:C; [|done]. assert (i_type x <> T_CHAR_ARRAY) as Q by (intros Q; by rewrite Q in C).
        destruct (fm_plain _ (Fh Q)) as (P1 & _). auto.
    Qed.

    Lemma key_inj g h : headb g = true -> g <> 1%nat -> headb h = true -> h <> 1%nat -> node_key g = node_key h -> g = h.
    Proof.
      intros Hg Ng Hh Nh E. destruct (head_inv g Hg Ng) as (p & px & x & Hc & Ep & Ex & Ps & M). destruct (head_inv h Hh Nh) as (q & qx & y & Hd & Eq & Ey & Qs & My).
      unfold node_key in E. rewrite Ex, Ey in E. injection E as E1 E2 E3. destruct (decide (g = h)) as [|N]; [done|]. exfalso.
      apply (v_uniq _ _ _ _ _ I p q g h px qx x y N Hc Hd Ep Eq Ex Ey Ps Qs). split; [done|]. split; [done|]. split; [done|]. intros C. rewrite E2 in *. by rewrite C in E3.
    Qed.

    Lemma covered i k : lev (parf (lns st)) i k -> i <> 0%nat -> (i < length (lns st))%nat ->
      exists h n, headb h = true /\ h <> 0%nat /\ (h < length (lns st))%nat /\ i ∈ clan n h /\ (meas (D i) + n <= meas (D h))%nat.
    Proof.
      induction 1 as [i E|i k Np Lv IH]; intros Iz Li.
      - destruct (lookup_lt_is_Some_2 (lns st) i Li) as [n En]. rewrite (parf_lu _ _ _ En) in E. destruct (fo_root _ _ R i n Iz En E) as [-> _].
        exists 1%nat, 0%nat. do 3 (split; [done|]). split; [left|lia].
      - assert (i ∈ K (parf (lns st) i)) as Hk by (by apply (fo_in _ _ R)). remember (parf (lns st) i) as p eqn:Pp.
        destruct (kid_lt _ _ R _ _ Hk) as (_ & _ & Pz & Lp & _). destruct (n_has _ _ _ _ L p Lp) as [px Ep]. destruct (n_has _ _ _ _ L i Li) as [x Ex].
        destruct (ptr_or_str (i_type px) && matchable (i_type x)) eqn:Hd.
        { apply andb_true_iff in Hd as [Ps M]. exists i, 0%nat. split; [by eapply head_of|]. do 2 (split; [done|]). split; [left|lia]. }
        destruct (IH Pz Lp) as (h & n & Hh & Hz & Lh & Hc & Hm). exists h, (S n). do 3 (split; [done|]). split; [by eapply clan_kid|].
        cut (meas (D i) < meas (D p))%nat; [lia|].
        assert (i_type px <> T_CHAR_ARRAY) as Nc by (intros Q; rewrite (leaf_kids _ _ _ _ L _ _ Pz Ep Q) in Hk; by apply elem_of_nil in Hk).
        pose proof (node_vis _ _ _ _ L _ _ Pz Ep Nc) as V. pose proof (n_type _ _ _ _ L _ _ Pz Ep) as Tp. pose proof (n_type _ _ _ _ L _ _ Iz Ex) as Ti.
        destruct (child_of _ _ _ _ L _ _ _ _ Hk Ep Ex) as [k0 t T E1 E2 Hf _|cnt j T U Lj Ed1 _|T C _|T Wp Nz Ed N1 N2|T Wp Tx].
        + eapply meas_member; [done|done|left; congruence|done].
        + rewrite Ed1. apply meas_part; [apply (vis_fam _ _ _ V)|congruence].
        + eapply h_member; [done|congruence|done].
        + rewrite Ed. apply meas_content; [by eapply vis_fam|congruence|]. rewrite Ed in Ti. cbn in Ti. rewrite Ti. rewrite T in Hd. done.
        + rewrite T, Tx in Hd. done.
    Qed.

    Lemma nodes_bound : (length (s_info st) <= node_max)%nat.
    Proof.
      pose proof (fo_len _ _ R) as L1. rewrite (v_len _ _ _ _ _ I).
      set (all := seq 1 (length (lns st) - 1)). set (hs := filter (fun h => headb h = true /\ h <> 1%nat) all).
      assert (NoDup hs) as Nh by (apply NoDup_filter, NoDup_seq).
      assert (length hs <= length keys)%nat as Lk.
      { rewrite <- (fmap_length node_key). apply submseteq_length, NoDup_submseteq.
        - apply NoDup_fmap_2_strong; [|done]. intros g h Hg Hh. apply elem_of_list_filter in Hg as [[? ?] _], Hh as [[? ?] _]. by apply key_inj.
        - intros k Hk. apply elem_of_list_fmap in Hk as (h & -> & Hh). apply elem_of_list_filter in Hh as [[? ?] _]. by apply head_key. }
      assert (length all <= length (concat (map (clan meas_max) (1%nat :: hs))))%nat as La.
      { apply submseteq_length, NoDup_submseteq; [apply NoDup_seq|]. intros i Hi. apply elem_of_seq in Hi.
        assert (i <> 0%nat /\ (i < length (lns st))%nat) as [Iz Li] by lia. destruct (fo_lev _ _ R i Iz Li) as [k Lv].
        destruct (covered i k Lv Iz Li) as (h & n & Hh & Hz & Lh & Hc & Hm).
        apply elem_of_list_In, in_concat. exists (clan meas_max h). split.
        - apply in_map, elem_of_list_In. destruct (decide (h = 1%nat)) as [->|N1]; [left|right]. apply elem_of_list_filter. split; [done|]. apply elem_of_seq. lia.
        - apply elem_of_list_In. eapply clan_mono; [|exact Hc]. destruct (n_has _ _ _ _ L h Lh) as [x Ex].
          destruct (Z.eq_dec (i_type x) T_CHAR_ARRAY) as [T|T].
          + rewrite <- (n_type _ _ _ _ L _ _ Hz Ex) in T. unfold meas in Hm at 2. unfold stem, tail, value_type in Hm. rewrite T in Hm. cbn -[Nat.mul Nat.add meas] in Hm. lia.
          + pose proof (meas_le _ (vis_fam _ _ _ (node_vis _ _ _ _ L _ _ Hz Ex T))). lia. }
      assert (forall l, length (concat (map (clan meas_max) l)) <= length l * clan_max meas_max)%nat as G.
      { induction l as [|c l IHl]; [done|]. cbn [map concat length]. rewrite app_length. pose proof (clan_le meas_max c) as Q. clear -IHl Q. revert IHl Q. generalize (clan_max meas_max). intros; lia. }
      specialize (G (1%nat :: hs)). cbn [length] in G. unfold all in La. rewrite seq_length in La. unfold node_max.
      assert (S (length hs) * clan_max meas_max <= (1 + length keys) * clan_max meas_max)%nat by (apply Nat.mul_le_mono_r; lia). clear -L1 La G H. lia.
    Qed.
  End Count.
End Size.
