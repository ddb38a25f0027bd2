(** C75: the types of union discriminator overrides (src/mr_udo_init.c). *)
From Verif Require Import Base Udo UdoSpec UdoProof.

(** C75.  mr_udo_init ends without access outside its arrays.  It changes nothing in an
    override that has a type.  An override without type gets the type T exactly when the
    discriminators nearest to the field it belongs to, on all ways through the enclosing
    types, exist and have the type T. *)
Theorem C75_override_types : forall tds order ovs, udo_wf tds order ovs ->
  exists ovs', udo_init tds order true ovs = Some ovs' /\ length ovs' = length ovs /\
  forall a u, ovs !! a = Some u -> exists u', ovs' !! a = Some u' /\ length u' = length u /\
  forall e o, u !! e = Some o -> exists o', u' !! e = Some o' /\ o_value o' = o_value o /\
    match o_type o with
    | Some _ => o' = o
    | None => (o' = o /\ forall i m s, overrides tds order i a e m -> ~ agreed tds order i m s) \/
              (exists s i m, o' = Ov (o_value o) (Some s) true /\ overrides tds order i a e m /\ agreed tds order i m s)
    end.
Proof. apply udo_init_ok. Qed.
Print Assumptions C75_override_types.

(** C75.  When no array of overrides belongs to two fields with different discriminators
    the result does not depend on the order of the types in the collection. *)
Theorem C75_order_irrelevant : forall tds order order' ovs, udo_wf tds order ovs -> order ≡ₚ order' ->
  (forall a e i m i' m', overrides tds order i a e m -> overrides tds order i' a e m' -> i' = i /\ m' = m) ->
  udo_init tds order true ovs = udo_init tds order' true ovs.
Proof.
  intros tds order order' ovs W P U.
  assert (forall k, k ∈ order <-> k ∈ order') as In by (intros k; by rewrite P).
  assert (udo_wf tds order' ovs) as W'.
  { destruct W as [W1 W2 W3 W4 W5]. split; [intros k H; by apply W1, In|by rewrite <- P|done|done|]. intros k t f a H. by apply W5, In. }
  assert (forall k, compound tds order k <-> compound tds order' k) as C by (intros k; unfold compound; by rewrite In).
  assert (forall k j, encloses tds order k j <-> encloses tds order' k j) as En by (intros k j; unfold encloses; by rewrite !C).
  assert (forall m i k, around tds order m i k <-> around tds order' m i k) as Ar.
  { intros m i k. split; induction 1 as [|j k A IH Hn E]; [constructor| |constructor|]; (eapply around_up; [exact IH|exact Hn|by apply En]). }
  assert (forall i m s, agreed tds order i m s <-> agreed tds order' i m s) as Ag.
  { intros i m s. unfold agreed. split; intros [(k & A & D) H]; (split; [exists k; split; [by apply Ar|done]|]); intros k' s' A'; apply H; by apply Ar. }
  assert (forall i a e m, overrides tds order i a e m <-> overrides tds order' i a e m) as Ov by (intros i a e m; unfold overrides; by rewrite C).
  destruct (C75_override_types tds order ovs W) as (o1 & -> & L1 & H1), (C75_override_types tds order' ovs W') as (o2 & -> & L2 & H2). f_equal.
  apply list_eq_same_length with (length ovs); [done|done|]. intros a u1 u2 La E1 E2.
  destruct (lookup_lt_is_Some_2 ovs a La) as [u Eu]. destruct (H1 a u Eu) as (u1' & E1' & Lu1 & K1), (H2 a u Eu) as (u2' & E2' & Lu2 & K2).
  rewrite E1 in E1'. injection E1' as <-. rewrite E2 in E2'. injection E2' as <-.
  apply list_eq_same_length with (length u); [done|done|]. intros e x1 x2 Le F1 F2. destruct (lookup_lt_is_Some_2 u e Le) as [o Eo].
  destruct (K1 e o Eo) as (x1' & F1' & _ & T1), (K2 e o Eo) as (x2' & F2' & _ & T2). rewrite F1 in F1'. injection F1' as <-. rewrite F2 in F2'. injection F2' as <-.
  destruct (o_type o); [congruence|]. destruct T1 as [[-> N1]|(s & i & m & -> & O1 & A1)], T2 as [[-> N2]|(s' & i' & m' & -> & O2 & A2)]; [done| | |].
  - exfalso. apply (N1 i' m' s'); [by apply Ov|by apply Ag].
  - exfalso. apply (N2 i m s); [by apply Ov|by apply Ag].
  - apply Ov in O2. destruct (U a e i m i' m' O1 O2) as [-> ->]. apply Ag in A2. destruct A1 as [_ A1], A2 as [(k & A & D) _]. by rewrite (A1 k s' A D).
Qed.
Print Assumptions C75_order_irrelevant.

(** Types: 0 mr_ptr_t; 1 a structure with a union whose discriminator 7 is elsewhere; 2 a
    structure with 7 and a field of type 1; 3 the type of this 7; 4 a structure with a
    field of type mr_ptr_t and a field 7 of type 5; 6 the union. *)
Definition ud_tds : list utd :=
  [ Td true 100 100 [Fl 8 None None None 0] [Fl 8 None None None 0];
    Td true 101 101 [Fl 9 (Some 6) (Some 7) (Some 0) 2] [Fl 9 (Some 6) (Some 7) (Some 0) 2];
    Td true 102 102 [Fl 7 (Some 3) None None 0; Fl 10 (Some 1) None None 0] [Fl 10 (Some 1) None None 0; Fl 7 (Some 3) None None 0];
    Td false 103 103 [] [];
    Td true 104 104 [Fl 7 (Some 5) None None 0; Fl 11 (Some 0) None None 0] [Fl 7 (Some 5) None None 0; Fl 11 (Some 0) None None 0];
    Td false 105 105 [] [];
    Td true 106 106 [Fl 12 (Some 3) None None 0] [Fl 12 (Some 3) None None 0] ].
Definition ud_ovs : list (list uover) := [[Ov 1 None false; Ov 2 (Some 55%Z) false]].
Definition ud_order : list nat := [4; 2; 6; 0; 1; 3; 5].

Lemma ud_wf : udo_wf ud_tds ud_order ud_ovs.
Proof.
  split.
  - intros k H. cut (Forall (fun k => k < 7) ud_order); [intros F; by apply (proj1 (Forall_forall _ _) F k)|]. repeat constructor; lia.
  - apply (bool_decide_eq_true_1 _). vm_compute. reflexivity.
  - intros k t E. cut (Forall (fun t => NoDup (map f_name (t_index t))) ud_tds); [intros F; exact (Forall_lookup_1 _ _ _ _ F E)|].
    repeat constructor; cbn; rewrite ?elem_of_cons, ?elem_of_nil; lia.
  - intros k t f d E Hf Hd. cut (Forall (fun t => Forall (fun f => match f_tdp f with Some d => d < 7 | None => True end) (t_index t)) ud_tds).
    + intros F. apply (Forall_lookup_1 _ _ _ _ F) in E. apply (proj1 (Forall_forall _ _) E) in Hf. by rewrite Hd in Hf.
    + repeat constructor; cbn; lia.
  - intros k t f a _ E Hf Ha. cut (Forall (fun t => Forall (fun f => match f_udo f with Some a => a = 0 /\ f_count f <= 2 | None => True end) (t_fields t)) ud_tds).
    + intros F. apply (Forall_lookup_1 _ _ _ _ F) in E. apply (proj1 (Forall_forall _ _) E) in Hf. rewrite Ha in Hf. destruct Hf as [-> Hf]. eexists. split; [done|]. done.
    + repeat constructor; cbn; lia.
Qed.

Example C75_case : udo_wf ud_tds ud_order ud_ovs /\
  udo_init ud_tds ud_order true ud_ovs = Some [[Ov 1 (Some 103%Z) true; Ov 2 (Some 55%Z) false]].
Proof. split; [apply ud_wf|]. vm_compute. reflexivity. Qed.

(** mr_conf_init enters every type in the index of mr_ptr_t (src/metaresc.c:1959-1969), so
    for mr_udo_init mr_ptr_t encloses every structure and union. *)
Theorem C75_registered_pointers : forall tds order u un ks,
  tds !! u = Some un -> compound tds order u -> t_fields un <> [] ->
  (forall k, k ∈ ks -> exists t, tds !! k = Some t /\ t_name t ∉ map f_name (t_index un)) ->
  exists tds', register_pointers tds u ks = Some tds' /\
    (forall k, compound tds' order k <-> compound tds order k) /\
    (forall k, k ∈ ks -> compound tds order k ->
       (forall j t t', j ∈ ks -> tds !! k = Some t -> tds !! j = Some t' -> t_name t = t_name t' -> j = k) -> encloses tds' order u k) /\
    (forall j k, encloses tds order j k -> encloses tds' order j k).
Proof.
  intros tds order u un ks Eu Cu Nf. 
  assert (forall tds1 un1 dn ks, length tds1 = length tds -> (forall j, j <> u -> tds1 !! j = tds !! j) ->
    tds1 !! u = Some un1 -> t_struct un1 = t_struct un -> t_name un1 = t_name un -> t_fields un1 = t_fields un ->
    (forall f, f ∈ t_index un -> f ∈ t_index un1) ->
    (forall f, f ∈ t_index un1 -> f ∈ t_index un \/ exists k t, k ∈ dn /\ f_tdp f = Some k /\ tds !! k = Some t /\ f_name f = t_name t) ->
    (forall k t, k ∈ dn -> tds !! k = Some t -> exists f k' t', f ∈ t_index un1 /\ f_tdp f = Some k' /\ k' ∈ dn /\ tds !! k' = Some t' /\ t_name t' = t_name t) ->
    (forall k, k ∈ ks -> exists t, tds !! k = Some t /\ t_name t ∉ map f_name (t_index un)) ->
    exists tds' un', register_pointers tds1 u ks = Some tds' /\ (forall j, j <> u -> tds' !! j = tds !! j) /\ tds' !! u = Some un' /\ t_struct un' = t_struct un /\
      (forall f, f ∈ t_index un -> f ∈ t_index un') /\
      (forall k t, k ∈ dn ++ ks -> tds !! k = Some t -> exists f k' t', f ∈ t_index un' /\ f_tdp f = Some k' /\ k' ∈ dn ++ ks /\ tds !! k' = Some t' /\ t_name t' = t_name t)) as Run.
  { intros tds1 un1 dn ks0. revert tds1 un1 dn. induction ks0 as [|k ks0 IH]; intros tds1 un1 dn L O E1 St Nm Fs Sub Old Dn Hk.
    - rewrite app_nil_r. exists tds1, un1. by repeat (split; [done|]).
    - destruct (Hk k) as (t & Et & Ft); [by left|].
      assert (exists t1, tds1 !! k = Some t1 /\ t_name t1 = t_name t) as (t1 & Et1 & Nt).
      { destruct (decide (k = u)) as [->|Nk]; [exists un1; split; [done|]; congruence|exists t; by rewrite O]. }
      destruct (register_pointer_ok tds1 u k un1 t1 E1 Et1) as (tds2 & f & Er & L2 & O2 & un2 & E2 & St2 & Nm2 & _ & Fs2 & [Fn Ftd] & Ix); [by rewrite Fs|].
      cbn [register_pointers]. rewrite Er. cbn [mbind option_bind].
      destruct (IH tds2 un2 (dn ++ [k])) as (tds' & un' & R); [congruence|intros j Nj; by rewrite O2, O|done|congruence|congruence|congruence| | | | |].
      + intros g Hg. destruct Ix as [[-> _]|[-> _]]; [apply elem_of_app; left; by apply Sub|by apply Sub].
      + assert (forall g, g ∈ t_index un1 -> g ∈ t_index un \/ exists k0 t0, k0 ∈ dn ++ [k] /\ f_tdp g = Some k0 /\ tds !! k0 = Some t0 /\ f_name g = t_name t0) as Old'.
        { intros g Hg. destruct (Old g Hg) as [?|(k0 & t0 & Hk0 & R)]; [by left|]. right. exists k0, t0. split; [apply elem_of_app; by left|done]. }
        intros g Hg. destruct Ix as [[Ex _]|[Ex _]]; rewrite Ex in Hg; [|by apply Old']. apply elem_of_app in Hg as [Hg|Hg]; [by apply Old'|].
        apply elem_of_list_singleton in Hg as ->. right. exists k, t. split; [apply elem_of_app; right; by left|]. split; [done|]. split; [done|congruence].
      + assert (forall f0, f0 ∈ t_index un1 -> f0 ∈ t_index un2) as Up by (intros g Hg; destruct Ix as [[-> _]|[-> _]]; [apply elem_of_app; by left|done]).
        intros k0 t0 [Hk0|Hk0]%elem_of_app Et0.
        * destruct (Dn k0 t0 Hk0 Et0) as (g & k' & t' & Hg & R1 & R2 & R). exists g, k', t'. split; [by apply Up|]. split; [done|]. split; [apply elem_of_app; by left|done].
        * apply elem_of_list_singleton in Hk0 as ->. rewrite Et in Et0. injection Et0 as <-. destruct Ix as [[Ex _]|[Ex Hsome]].
          -- exists f, k, t. rewrite Ex. split; [apply elem_of_app; right; by left|]. split; [done|]. split; [apply elem_of_app; right; by left|done].
          -- destruct (fd_by_name un1 (t_name t1)) as [g|] eqn:Eg; [|done]. unfold fd_by_name in Eg. destruct (t_struct un1); [|done].
             apply List.find_some in Eg as [Hg Hn]. apply Nat.eqb_eq in Hn. apply elem_of_list_In in Hg.
             destruct (Old g Hg) as [Hold|(k0 & t0 & Hk0 & Hg1 & Hg2 & Hg3)].
             ++ exfalso. apply Ft. apply elem_of_list_fmap. exists g. split; [congruence|done].
             ++ exists g, k0, t0. split; [by apply Up|]. split; [done|]. split; [apply elem_of_app; by left|]. split; [done|congruence].
      + intros j Hj. apply Hk. by right.
      + exists tds', un'. by rewrite <- app_assoc in R. }
  intros Hk. destruct (Run tds un [] ks) as (tds' & un' & Er & O & Eu' & St & Sub & Dn); try done.
  - intros f Hf. by left.
  - intros k t H. by apply elem_of_nil in H.
  - exists tds'. split; [done|]. cbn [app] in Dn.
    assert (forall k, compound tds' order k <-> compound tds order k) as C.
    { intros k. unfold compound. destruct (decide (k = u)) as [->|Nk]; [|by rewrite O]. rewrite Eu, Eu'. split; intros [? (t & [= <-] & ?)]; (split; [done|]); eexists; (split; [done|congruence]). }
    split; [done|]. split.
    + intros k Hin Ck Un. pose proof Ck as [_ (t & Et & _)]. destruct (Dn k t Hin Et) as (f & k' & t' & Hf & Ftd & Hk' & Et' & Nt).
      assert (k' = k) as -> by (eapply Un; eauto). split; [by apply C|]. split; [by apply C|]. by exists un', f.
    + intros j k (Cj & Ck & t & f & Et & Hf & Ff). split; [by apply C|]. split; [by apply C|]. destruct (decide (j = u)) as [->|Nj].
      * rewrite Eu in Et. injection Et as <-. exists un', f. split; [done|]. split; [by apply Sub|done].
      * exists t, f. by rewrite O.
Qed.
Print Assumptions C75_registered_pointers.

(** Hence the type of an override is not found although only one structure has a field of
    the type with the override and this structure has the discriminator: an unrelated
    structure with a field of type mr_ptr_t and a field of the same name is in the way. *)
Theorem C75_unrelated_type_refuted : exists tds order u ks tds' ovs,
  udo_wf tds order ovs /\ udo_wf tds' order ovs /\ register_pointers tds u ks = Some tds' /\
  agreed tds order 1 7 103 /\ overrides tds order 1 0 0 7 /\
  udo_init tds order true ovs = Some [[Ov 1 (Some 103%Z) true; Ov 2 (Some 55%Z) false]] /\
  udo_init tds' order true ovs = Some ovs.
Proof.
  exists ud_tds, ud_order, 0, ud_order. destruct (register_pointers ud_tds 0 ud_order) as [tds'|] eqn:E; [|by vm_compute in E].
  exists tds', ud_ovs. split; [apply ud_wf|].
  assert (tds' = <[0 := Td true 100 100 [Fl 8 None None None 0]
    (Fl 8 None None None 0 :: map (fun k => Fl (100 + k) (Some k) None None 0) ud_order)]> ud_tds) as -> by (vm_compute in E; injection E as <-; reflexivity).
  split.
  { split.
    - intros k H. by apply (uw_types _ _ _ ud_wf).
    - apply ud_wf.
    - intros k t Et. cut (Forall (fun t => NoDup (map f_name (t_index t))) (<[0 := Td true 100 100 [Fl 8 None None None 0]
        (Fl 8 None None None 0 :: map (fun k => Fl (100 + k) (Some k) None None 0) ud_order)]> ud_tds)); [intros F; exact (Forall_lookup_1 _ _ _ _ F Et)|].
      repeat constructor; cbn; rewrite ?elem_of_cons, ?elem_of_nil; lia.
    - intros k t f d Et Hf Hd. cut (Forall (fun t => Forall (fun f => match f_tdp f with Some d => d < 7 | None => True end) (t_index t)) (<[0 := Td true 100 100 [Fl 8 None None None 0]
        (Fl 8 None None None 0 :: map (fun k => Fl (100 + k) (Some k) None None 0) ud_order)]> ud_tds)).
      + intros F. apply (Forall_lookup_1 _ _ _ _ F) in Et. apply (proj1 (Forall_forall _ _) Et) in Hf. by rewrite Hd in Hf.
      + repeat constructor; cbn; lia.
    - intros k t f a Hk Et Hf Ha. destruct k as [|k]; [cbn in Et; injection Et as <-; cbn in Hf; apply elem_of_list_singleton in Hf as ->; done|].
      by apply (uw_size _ _ _ ud_wf (S k) t f a). }
  split; [done|]. split; [|split; [|split; vm_compute; reflexivity]].
  - destruct (C75_override_types ud_tds ud_order ud_ovs ud_wf) as (o & Eo & _ & H).
    assert (o = [[Ov 1 (Some 103%Z) true; Ov 2 (Some 55%Z) false]]) as -> by (vm_compute in Eo; by injection Eo).
    destruct (H 0 _ eq_refl) as (u' & [= <-] & _ & H'). destruct (H' 0 _ eq_refl) as (o' & [= <-] & _ & [[? _]|(s & i & m & [= <-] & O & A)]); [done|].
    destruct O as (Ci & t & f & Et & Hf & Hu & _ & Hm & _).
    assert (Forall (fun t => Forall (fun f => match f_udo f with Some a => f_meta f = Some 7 /\ t_name t = 101 | None => True end) (t_fields t)) ud_tds) as F by (repeat constructor).
    apply (Forall_lookup_1 _ _ _ _ F) in Et as Ft. apply (proj1 (Forall_forall _ _) Ft) in Hf. rewrite Hu in Hf. destruct Hf as [Hf Hn]. rewrite Hm in Hf. injection Hf as ->.
    do 7 (destruct i as [|i]; [cbn in Et; injection Et as <-; try discriminate Hn; exact A|]). done.
  - split; [split; [apply elem_of_list_In; cbn; auto 10|]; eexists; by split|]. eexists _, _. split; [reflexivity|]. split; [by left|]. cbn. repeat split; [done|lia].
Qed.
Print Assumptions C75_unrelated_type_refuted.

(** The hypotheses of [C75_order_irrelevant] and [C75_registered_pointers] in this case. *)
Example C75_order_case : ud_order ≡ₚ [0; 1; 2; 3; 4; 5; 6] /\
  (forall a e i m i' m', overrides ud_tds ud_order i a e m -> overrides ud_tds ud_order i' a e m' -> i' = i /\ m' = m).
Proof.
  split; [apply (bool_decide_eq_true_1 _); vm_compute; reflexivity|].
  assert (forall a e i m, overrides ud_tds ud_order i a e m -> i = 1 /\ m = 7) as H.
  { intros a e i m (_ & t & f & Et & Hf & Hu & _ & Hm & _).
    do 7 (destruct i as [|i]; [cbn in Et; injection Et as <-; cbn in Hf; rewrite ?elem_of_cons, ?elem_of_nil in Hf; intuition (subst; cbn in *; congruence)|]). done. }
  intros a e i m i' m' H1 H2. destruct (H _ _ _ _ H1) as [-> ->], (H _ _ _ _ H2) as [-> ->]. done.
Qed.

Example C75_registered_case : compound ud_tds ud_order 0 /\
  (forall k, k ∈ ud_order -> exists t, ud_tds !! k = Some t /\ t_name t ∉ map f_name [Fl 8 None None None 0]) /\
  ~ encloses ud_tds ud_order 0 2 /\
  exists tds', register_pointers ud_tds 0 ud_order = Some tds' /\ encloses tds' ud_order 0 2.
Proof.
  assert (compound ud_tds ud_order 0) as C0 by (split; [apply elem_of_list_In; cbn; auto 10|eexists; by split]).
  assert (forall k, k ∈ ud_order -> exists t, ud_tds !! k = Some t /\ t_name t = 100 + k) as N.
  { intros k H. cut (Forall (fun k => exists t, ud_tds !! k = Some t /\ t_name t = 100 + k) ud_order); [intros F; by apply (proj1 (Forall_forall _ _) F k)|].
    repeat constructor; eexists; by split. }
  assert (forall k, k ∈ ud_order -> exists t, ud_tds !! k = Some t /\ t_name t ∉ map f_name [Fl 8 None None None 0]) as N'.
  { intros k H. destruct (N k H) as (t & E & Hn). exists t. split; [done|]. cbn. rewrite Hn, elem_of_list_singleton. lia. }
  split; [done|]. split; [done|]. split.
  - intros (_ & _ & t & f & [= <-] & Hf & Ef). apply elem_of_list_singleton in Hf as ->. done.
  - destruct (C75_registered_pointers ud_tds ud_order 0 _ ud_order eq_refl C0 ltac:(done) N') as (tds' & E & _ & H & _). exists tds'. split; [done|].
    apply H; [apply elem_of_list_In; cbn; auto 10|split; [apply elem_of_list_In; cbn; auto 10|eexists; by split]|].
    intros j t t' Hj Et Et' En. destruct (N j Hj) as (t1 & E1 & N1). rewrite Et' in E1. injection E1 as <-. cbn in Et. injection Et as <-. cbn in En. lia.
Qed.
