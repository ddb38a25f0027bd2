(** The table made by mr_save can be printed as JSON, for the proof of C77. *)
From stdpp Require Import list sets.
From Verif Require Import Base Ptrs DfsProof PruneProof TreeFacts Save SaveSpec Json JsonSpec Copy CopySpec CopyTree.
From Verif Require Load LoadSpec.
Local Open Scope Z_scope.

Section Print.
  Context (W : world) (names : nat -> list Z) (known : list Z -> bool) (wrapv : bool) (cstr : Z -> list Z) (shown : Z -> Z -> fd -> jkind) (st : sst).
  Context (d0 : dtree).
  Notation env := (load_env W names).
  Notation js := (map (print_info W names cstr shown) (s_info st)).
  Hypothesis HW : wf_world W.
  Hypothesis HP : plain_world W names known.
  Hypothesis HS : printable wrapv cstr shown.
  Hypothesis HT : tree_at (lns st) 0 0 (shape d0).
  Hypothesis HL : Forall (fun x => local W st x /\ fine W names (d_g x)) (flat d0).
  Hypothesis H0 : f_unnamed (d_g d0) = true.
  Hypothesis HQ : forall i n, i <> 0%nat -> lns st !! i = Some n -> i ∈ nodes (shape d0) \/
      parent n ∈ nodes (shape d0) /\ exists q, s_info st !! parent n = Some q /\ i_type q = T_STRING.

  Lemma js_at i x : s_info st !! i = Some x -> js !! i = Some (print_info W names cstr shown x).
  Proof. intros E. by rewrite list_lookup_fmap, E. Qed.

  Lemma local_stands d : local W st d -> exists x n, stands st (d_i d) (d_g d) (d_a d) x n.
  Proof. destruct 1; cbn; eauto. Qed.

  Lemma target_in r xr : target st r xr -> r ∈ nodes (shape d0) /\ s_info st !! r = Some xr.
  Proof.
    intros (Z0 & nr & Ex & En & _ & _ & Pq). split; [|done]. destruct (HQ r nr Z0 En) as [?|(Hp & q & Eq & Tq)]; [done|exfalso].
    destruct (nodes_nonzero _ _ _ HT _ Hp) as (Np & _). by apply (Pq Np q Eq).
  Qed.

  Lemma kid_named d c x n : d ∈ flat d0 -> c ∈ d_ks d -> stands st (d_i c) (d_g c) (d_a c) x n ->
    parent n = d_i d /\ d_i d <> 0%nat /\
    if f_type (d_g d) =? T_STRUCT then
      in_struct js n = true /\ f_np (d_g c) = false /\ i_fdp x = Some (d_g c) /\ Forall unquotable (names (f_name (d_g c))) /\ known (names (f_name (d_g c))) = true
    else in_struct js n = false /\ f_unnamed (d_g c) = true.
  Proof.
    intros Hd Hc (Ex & En & _ & _ & _ & _ & _ & h & Eh & _ & _ & Hh).
    rewrite <- (rename_id (shape d0)) in HT. destruct (flat_parent _ _ _ _ _ d c HT Hd Hc) as (n' & En' & Pn & Nz). assert (n' = n) as -> by congruence.
    split; [done|]. split; [done|]. rewrite Forall_forall in HL. destruct (HL d Hd) as [Ld _]. unfold in_struct. rewrite Pn.
    destruct (d_i d) as [|di] eqn:Edi; [done|].
    destruct Ld as [i e g a o ks xd nd k t S Ty Nr Etd Et FF|i e g a o ks xd nd cnt S Ty Nr U FF|i e g a o xd nd p c' S Ty Nr Nn Ep Np A1 A2 E1 E2 E3 E4|]; cbn [d_i d_g d_ks] in *.
    - destruct S as (Exd & _ & _ & Et' & _). rewrite Edi in Exd. rewrite (js_at _ _ Exd). cbn [j_kind print_info]. unfold print_kind. rewrite Et', Ty. cbn.
      apply elem_of_list_lookup in Hc as [y Hc]. destruct (Forall2_lookup_r _ _ _ _ _ FF Hc) as (f & Hf & _ & Efg & _). rewrite Efg in *.
      assert (f ∈ t_fields t) as Hin by (by eapply elem_of_list_lookup_2).
      destruct (HW k t Et) as (_ & W1 & _). rewrite Forall_forall in W1. destruct (W1 f Hin) as (_ & Npf).
      split; [done|]. split; [done|]. rewrite (Hh Npf) in Eh. split; [done|].
      destruct (HP k t Et) as (_ & _ & P3). rewrite Forall_forall in P3. by apply P3.
    - rewrite Ty. destruct S as (Exd & _ & _ & Et' & _). rewrite Edi in Exd. rewrite (js_at _ _ Exd). cbn [j_kind print_info]. unfold print_kind. rewrite Et', Ty. cbn.
      apply elem_of_list_lookup in Hc as [y Hc]. destruct (Forall2_lookup_r _ _ _ _ _ FF Hc) as (j & _ & _ & -> & _). done.
    - rewrite Ty. destruct S as (Exd & _ & _ & Et' & _). rewrite Edi in Exd. rewrite (js_at _ _ Exd). cbn [j_kind print_info]. unfold print_kind. rewrite Et', Ty. cbn.
      apply elem_of_list_singleton in Hc as ->. rewrite E2. done.
    - by apply elem_of_nil in Hc.
  Qed.

  Lemma shown_ok i g a x n : stands st i g a x n -> fine W names g -> (f_type g = T_STRING -> w_ptr W a <> None) -> kind_ok wrapv (print_kind W cstr shown x).
  Proof.
    intros (_ & _ & Ea & Et & _ & _ & _ & h & Eh & _) _ Hs. destruct HS as (S1 & S2 & _). unfold print_kind. rewrite Eh, Ea, Et.
    destruct (_ || union_type _); [done|]. destruct (_ || _); [done|]. destruct (Z.eqb_spec (f_type g) T_STRING) as [E|E]; [|apply S2].
    destruct (w_ptr W a) as [p|]; [apply S1|]. by apply Hs.
  Qed.

  Lemma all_printable i : i ∈ nodes (shape d0) -> node_ok known wrapv (lns st) js (shape d0) i.
  Proof.
    rewrite flat_nodes. intros Hi. apply elem_of_list_In, in_map_iff in Hi as (d & <- & Hd). apply elem_of_list_In in Hd.
    pose proof HL as HL'. rewrite Forall_forall in HL'. destruct (HL' d Hd) as [Ld Fd]. destruct (local_stands d Ld) as (x & n & S). pose proof S as (Ex & En & Ea & Et & Eu & _ & Nl & h & Eh & _ & _ & Hh).
    exists n, (print_info W names cstr shown x). split; [done|]. split; [by apply js_at|]. split.
    - destruct (flat_cases d0 d Hd) as [->|(d' & Hd' & Hin)].
      + destruct (tree_at_root _ _ _ _ HT) as (_ & n' & En' & P' & _). assert (n' = n) as -> by (destruct d0; cbn in *; congruence).
        unfold in_struct. rewrite P'. cbn. by rewrite Eu.
      + destruct (kid_named d' d x n Hd' Hin S) as (_ & _ & K). destruct (f_type (d_g d') =? T_STRUCT).
        * destruct K as (-> & _ & Ef & K1 & K2). cbn. by rewrite Ef.
        * destruct K as (-> & K). cbn. by rewrite Eu.
    - destruct (flat_tree (lns st) (fun i => i) d0 0 0 ltac:(by rewrite rename_id) d Hd) as (p' & nx' & A). rewrite rename_id in A.
      destruct d as [i e g a o ks]. cbn [shape d_i d_g d_a d_ks] in *. rewrite tree_at_eq in A. destruct A as (n' & En' & _ & _ & _ & K). assert (n' = n) as -> by congruence.
      inversion Ld as [? ? ? ? ? ? x1 n1 k t S1 Ty Nr Etd Et' FF|? ? ? ? ? ? x1 n1 cnt S1 Ty Nr U FF|? ? ? ? ? x1 n1 p c' S1 Ty Nr Nn Ep Np A1 A2 E1 E2 E3 E4|? ? ? ? ? x1 n1 S1 B]; subst.
      + destruct S1 as (Ex1 & En1 & _). assert (n1 = n) as -> by congruence. rewrite Nr. cbn [print_info j_kind j_null]. unfold print_kind. rewrite Et, Ty. cbn. split; [done|]. right. split; [|by left].
        apply Nl. by rewrite Ty.
      + destruct S1 as (Ex1 & En1 & _). assert (n1 = n) as -> by congruence. rewrite Nr. cbn [print_info j_kind j_null]. unfold print_kind. rewrite Et, Ty. cbn. split; [done|]. right. split; [|by right].
        apply Nl. by rewrite Ty.
      + destruct S1 as (Ex1 & En1 & _). assert (n1 = n) as -> by congruence. assert (x1 = x) as -> by congruence. rewrite Nr. cbn [print_info j_kind j_null]. unfold print_kind. rewrite Et, Ty. cbn. split; [done|]. right. split; [done|by right].
      + destruct S1 as (Ex1 & En1 & _). assert (n1 = n) as -> by congruence. assert (x1 = x) as -> by congruence.
        destruct (is_ref n) eqn:Rn.
        * unfold bare in B. rewrite Rn in B. destruct (f_type g =? T_POINTER).
          { destruct B as (p & u & _ & _ & B). destruct ((p =? 0) || (u =? 0)); [by destruct B|]. destruct ((f_aux g =? T_VOID) || (f_aux g =? T_NONE)).
            - destruct B as [_ [(xr & Tr & _)|(xr & Tr & _)]]; by apply target_in in Tr as [? _].
            - destruct B as (_ & _ & _ & _ & xr & Tr & _). by apply target_in in Tr as [? _]. }
          destruct (f_type g =? T_STRING); [|destruct ((f_type g =? T_FUNC) || (f_type g =? T_FUNC_TYPE)); by destruct B].
          destruct B as (p & _ & _ & _ & B). destruct (B eq_refl) as (xr & Tr & _). by apply target_in in Tr as [? _].
        * split.
          { cbn. apply (shown_ok _ _ _ x n S Fd). intros Ts. unfold bare in B. rewrite Ts in B. cbn in B. destruct B as (p & -> & _). done. }
          left. unfold expandable in K. rewrite Rn in K. destruct (Nat.eqb_spec (first_child n) 0) as [->|]; [done|]. cbn in K. by destruct K as (_ & K & _).
  Qed.
End Print.
