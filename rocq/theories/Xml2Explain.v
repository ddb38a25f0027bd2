(** Documents of libxml2 that mr_xml2_load accepts. *)
From Verif Require Import Base Ptrs NumStr NumStrProof NumUnique Parse ParseProof DfsProof Cinit Xml Xml2 Xml2Link Xml2Parse Xml2Spec.
Local Open Scope Z_scope.

Lemma get_prop_some ps nm v : get_prop ps nm = Some v <-> has_prop ps nm v.
Proof.
  induction ps as [|[n w] ps IH]; cbn [get_prop].
  - split; [done|]. intros ([|? a] & b & E & _); done.
  - destruct (decide (nm = n)) as [->|N].
    + split; [intros [= ->]; by exists [], ps|]. intros ([|[n' w'] a] & b & E & Fa); cbn in E; injection E as; [by subst|]. subst.
      apply Forall_cons in Fa as [Fa _]. done.
    + rewrite IH. split.
      * intros (a & b & -> & Fa). exists ((n, w) :: a), b. split; [done|]. constructor; [cbn; congruence|done].
      * intros ([|[n' w'] a] & b & E & Fa); cbn in E; injection E as; [by subst|]. subst. apply Forall_cons in Fa as [_ Fa]. by exists a, b.
Qed.
Lemma get_prop_none ps nm : get_prop ps nm = None <-> forall v, ~ has_prop ps nm v.
Proof.
  split; [intros E v H; apply get_prop_some in H; congruence|]. intros H. destruct (get_prop ps nm) as [v|] eqn:E; [|done]. apply get_prop_some in E. by destruct (H v).
Qed.

Lemma blanks_forallb l : forallb isspace l = true <-> Forall NumStrProof.blank l.
Proof.
  rewrite forallb_forall, Forall_forall. split; intros H x Hx; apply isspace_blank; apply H; by apply elem_of_list_In.
Qed.
Lemma prop_value_number v i : prop_value v = Some i <-> has_number v i.
Proof.
  unfold prop_value, has_number. destruct (strtouintmax_ok v [] 0) as (z & e & E & R). rewrite E. cbn [mbind option_bind fst snd].
  assert (0 <= z mod 2 ^ 32) as P by (apply Z.mod_pos_bound; lia). split.
  - destruct (forallb isspace (drop e v)) eqn:B; [|done]. intros [= <-]. exists z, e. split; [done|]. split; [by apply blanks_forallb|]. lia.
  - intros (z' & e' & R' & B & Ei). destruct (number_read_unique _ _ _ _ _ _ R R') as [<- <-]. apply blanks_forallb in B. rewrite B. f_equal. lia.
Qed.

Lemma opt_prop_some ps nm i : opt_prop ps nm = Some (Some i) <-> exists v, has_prop ps nm v /\ has_number v i.
Proof.
  unfold opt_prop. split.
  - destruct (get_prop ps nm) as [v|] eqn:E; [|done]. destruct (prop_value v) as [j|] eqn:P; [|done]. intros [= <-].
    exists v. by rewrite <- get_prop_some, <- prop_value_number.
  - intros (v & H & N). apply get_prop_some in H. apply prop_value_number in N. by rewrite H, N.
Qed.
Lemma opt_prop_none ps nm : opt_prop ps nm = Some None <-> forall v, ~ has_prop ps nm v.
Proof.
  rewrite <- get_prop_none. unfold opt_prop. destruct (get_prop ps nm) as [v|]; [|done]. split; [|done]. by destruct (prop_value v).
Qed.
Lemma opt_prop_ok ps nm : (exists o, opt_prop ps nm = Some o) <-> forall v, has_prop ps nm v -> exists i, has_number v i.
Proof.
  split.
  - intros [[i|] E] v H.
    + apply opt_prop_some in E as (v' & H' & N). apply get_prop_some in H, H'. rewrite H in H'. injection H' as <-. by exists i.
    + destruct (proj1 (opt_prop_none ps nm) E v H).
  - intros H. unfold opt_prop. destruct (get_prop ps nm) as [v|] eqn:E; [|by eexists]. destruct (H v) as [i N]; [by apply get_prop_some|].
    apply prop_value_number in N. rewrite N. by eexists.
Qed.

Lemma elem_content_first ks : first_content ks (elem_content ks).
Proof.
  induction ks as [|[i nm ps xs|b [c|]] ks IH]; cbn [elem_content].
  - right. by split.
  - destruct IH as [(a & b & k & E & Fa)|[E Fa]]; [left; exists (XE i nm ps xs :: a), b, k; rewrite E at 1; split; [done|by constructor]|right; split; [done|by constructor]].
  - left. exists [], b, ks. by split.
  - destruct IH as [(a & b' & k & E & Fa)|[E Fa]]; [left; exists (XLeaf b None :: a), b', k; rewrite E at 1; split; [done|by constructor]|right; split; [done|by constructor]].
Qed.

Section Explain.
  Context (known : list Z -> bool).

  Definition wrel (e : xdoc) (a : wpay) : Prop := match e with XE _ nm ps ks => wpay_of known nm ps ks = Some a | XLeaf _ _ => False end.

  Lemma wpay_inv nm ps ks a : wpay_of known nm ps ks = Some a -> known nm = true /\ y_tag a = nm /\ y_text a = elem_content ks /\
    y_isnull a = some (get_prop ps txt_isnull) /\ opt_prop ps txt_ref_idx = Some (y_ri a) /\ opt_prop ps txt_ref = Some (y_rf a) /\ opt_prop ps txt_ref_content = Some (y_rc a).
  Proof.
    unfold wpay_of. destruct (opt_prop ps txt_ref_idx) as [ri|]; [|done]. destruct (opt_prop ps txt_ref) as [rf|]; [|done]. destruct (opt_prop ps txt_ref_content) as [rc|]; [|done].
    cbn [mbind option_bind]. destruct (known nm); [|done]. by intros [= <-].
  Qed.
  Lemma wpay_ok nm ps ks : (exists a, wpay_of known nm ps ks = Some a) <-> known nm = true /\
    (forall a v, a = txt_ref_idx \/ a = txt_ref \/ a = txt_ref_content -> has_prop ps a v -> exists i, has_number v i).
  Proof.
    split.
    - intros [a E]. apply wpay_inv in E as (K & _ & _ & _ & E1 & E2 & E3). split; [done|]. intros nm' v [->|[->| ->]]; apply opt_prop_ok; by eexists.
    - intros [K H]. unfold wpay_of. destruct (proj2 (opt_prop_ok ps txt_ref_idx)) as [o1 E1]; [intros v; apply H; auto|].
      destruct (proj2 (opt_prop_ok ps txt_ref)) as [o2 E2]; [intros v; apply H; auto|]. destruct (proj2 (opt_prop_ok ps txt_ref_content)) as [o3 E3]; [intros v; apply H; auto|].
      rewrite E1, E2, E3, K. by eexists.
  Qed.
  Lemma opt_some ps nm o : opt_prop ps nm = Some o -> some o = true <-> exists v, has_prop ps nm v.
  Proof.
    destruct o as [i|]; cbn; intros E.
    - split; [|done]. intros _. apply opt_prop_some in E as (v & H & _). by exists v.
    - split; [done|]. intros [v H]. by destruct (proj1 (opt_prop_none ps nm) E v).
  Qed.
  Lemma pay_ref_spec nm ps ks a : wpay_of known nm ps ks = Some a -> pay_ref a = true <-> exists v, has_prop ps txt_ref v \/ has_prop ps txt_ref_content v.
  Proof.
    intros E. apply wpay_inv in E as (_ & _ & _ & _ & _ & E2 & E3). unfold pay_ref. rewrite orb_true_iff, (opt_some _ _ _ E2), (opt_some _ _ _ E3).
    split; [intros [[v H]|[v H]]; eauto|intros [v [H|H]]; eauto].
  Qed.

  Lemma wrel_read e a k n : wrel e a -> is_ref n = false -> referenced n = false -> pub_idx n = 0%nat -> elem_read e (wfin a k n) (winf a).
  Proof.
    destruct e as [i nm ps ks|]; [|done]. cbn [wrel]. intros E R1 R2 R3. pose proof (pay_ref_spec _ _ _ _ E) as Pr. pose proof E as (K & Et & Ex & En & E1 & E2 & E3)%wpay_inv.
    cbn [elem_read]. unfold winf. cbn [w_name w_text w_null w_cref]. rewrite Et, Ex, En. split; [done|]. split; [apply elem_content_first|]. split.
    { destruct (get_prop ps txt_isnull) as [v|] eqn:G; cbn; [split; [intros _; exists v; by apply get_prop_some|done]|]. split; [done|]. intros [v H]. by destruct (proj1 (get_prop_none _ _) G v). }
    split; [by apply opt_some|]. split; [rewrite wfin_ref by done; exact Pr|]. split; [|split; [|split; [|split]]].
    - intros v H. destruct (y_rc a) as [j|] eqn:Y; [|by destruct (proj1 (opt_prop_none _ _) E3 v)].
      apply opt_prop_some in E3 as (v' & H' & N). apply get_prop_some in H, H'. rewrite H in H'. injection H' as <-. unfold wfin. rewrite Y. done.
    - intros v H C. destruct (y_rc a) as [j|] eqn:Y; [done|]. destruct (y_rf a) as [j|] eqn:Y2; [|by destruct (proj1 (opt_prop_none _ _) E2 v)].
      apply opt_prop_some in E2 as (v' & H' & N). apply get_prop_some in H, H'. rewrite H in H'. injection H' as <-. unfold wfin. rewrite Y, Y2. done.
    - rewrite <- (opt_some _ _ _ E1). unfold wfin. destruct (y_ri a), (y_rf a), (y_rc a); cbn; rewrite ?R2; done.
    - intros v H. destruct (y_ri a) as [j|] eqn:Y; [|by destruct (proj1 (opt_prop_none _ _) E1 v)].
      apply opt_prop_some in E1 as (v' & H' & N). apply get_prop_some in H, H'. rewrite H in H'. injection H' as <-. unfold wfin. rewrite Y. destruct (y_rf a), (y_rc a); done.
    - intros H. apply opt_prop_none in H. rewrite H in E1. injection E1 as E1. unfold wfin. rewrite <- E1. destruct (y_rf a), (y_rc a); done.
  Qed.

  Lemma wtable_pay (d : doc wpay) : forall p k nx j a, dinfos id d !! j = Some a -> exists p' nx' fc', table wfin p k nx d !! j = Some (wfin a (k + j)%nat (blank p' nx' fc')).
  Proof.
    induction d as [a0 ks IH] using doc_ind'. intros p k nx j a. rewrite table_eq. cbn [dinfos id]. destruct j as [|j].
    - intros [= ->]. rewrite Nat.add_0_r. by eexists _, _, _.
    - change (concat (map (dinfos id) ks) !! j = Some a -> exists p' nx' fc', tables wfin k (S k) 0 ks !! j = Some (wfin a (k + S j)%nat (blank p' nx' fc'))).
      replace (k + S j)%nat with (S k + j)%nat by lia. generalize (S k) as m. intros m. revert m j.
      induction IH as [|t ts Ht _ IH]; intros m j; [done|]. cbn [tables map concat]. intros E. destruct (decide (j < dsize t)%nat).
      + rewrite lookup_app_l in E by (rewrite dinfos_length; lia). rewrite lookup_app_l by (rewrite table_length; lia). by apply Ht.
      + rewrite lookup_app_r in E by (rewrite dinfos_length; lia). rewrite lookup_app_r by (rewrite table_length; lia). rewrite dinfos_length in E. rewrite table_length.
        replace (m + j)%nat with (m + dsize t + (j - dsize t))%nat by lia. by apply IH.
  Qed.
  Lemma winfos_pay (d : doc wpay) : dinfos winf d = map winf (dinfos id d).
  Proof.
    induction d as [a ks IH] using doc_ind'. cbn [dinfos map id]. f_equal.
    induction IH as [|t ts Ht _ IH]; [done|]. cbn [map concat]. by rewrite map_app, Ht, IH.
  Qed.

  Definition explained (x : xdoc) (d : doc wpay) : Prop :=
    is_elem x = true /\ Forall (elem_ok known) (elems x) /\ Forall2 wrel (elems x) (dinfos id d) /\ doc_all (plain_links wfin) d /\ forall k, mirrors (number_doc k d) x.

  Lemma wdocs_nil ks : wdocs known ks = Some [] <-> Forall (fun k => is_elem k = false) ks.
  Proof.
    induction ks as [|[i nm ps xs|b c] ks IH]; cbn [wdocs].
    - done.
    - split; [destruct (wdoc known (XE i nm ps xs)), (wdocs known ks); done|]. intros H. apply Forall_cons in H as [H _]. done.
    - rewrite IH, Forall_cons. cbn. tauto.
  Qed.

  Lemma wdoc_explained x : match wdoc known x with Some d => explained x d | None => is_elem x = true -> ~ Forall (elem_ok known) (elems x) end.
  Proof.
    induction x as [i nm ps ks IH|b c] using xdoc_ind'; [|done]. rewrite wdoc_eq.
    destruct (wpay_of known nm ps ks) as [a|] eqn:Ea.
    2: { cbn. intros _ H. apply Forall_cons in H as [(K & N & _) _]. destruct (proj2 (wpay_ok nm ps ks)) as [a Ea']; [by split|]. congruence. }
    cbn [mbind option_bind].
    assert (match wdocs known ks with
      | Some ds => Forall (elem_ok known) (concat (map elems ks)) /\ Forall2 wrel (concat (map elems ks)) (concat (map (dinfos id) ds)) /\
          Forall (doc_all (plain_links wfin)) ds /\ (forall k, mirror_kids (number_docs k ds) ks)
      | None => ~ Forall (elem_ok known) (concat (map elems ks)) end) as Hk.
    { clear Ea. induction IH as [|x ks Hx _ IH]; [cbn; repeat split; constructor|]. destruct x as [j n q xs|b c].
      - cbn [wdocs map concat]. destruct (wdoc known (XE j n q xs)) as [d|].
        + destruct Hx as (_ & X1 & X2 & X3 & X4). cbn [mbind option_bind]. destruct (wdocs known ks) as [ds|]; cbn [mbind option_bind].
          * destruct IH as (Y1 & Y2 & Y3 & Y4). split; [by apply Forall_app|]. split; [cbn [map concat]; by apply Forall2_app|]. split; [by constructor|].
            intros k. cbn [number_docs]. constructor; [apply X4|apply Y4].
          * intros F. apply Forall_app in F as [_ F]. done.
        + cbn [mbind option_bind]. intros F. apply Forall_app in F as [F _]. by apply Hx.
      - cbn [wdocs map concat elems app]. destruct (wdocs known ks); [|done]. destruct IH as (Y1 & Y2 & Y3 & Y4). do 3 (split; [done|]). intros k. constructor. apply Y4. }
    pose proof (proj1 (wpay_ok nm ps ks) (ex_intro _ _ Ea)) as (K & N). pose proof (pay_ref_spec _ _ _ _ Ea) as Pr. pose proof (wdocs_nil ks) as Wn.
    destruct (wdocs known ks) as [ds|]; cbn [mbind option_bind].
    2: { intros _ F. cbn [elems] in F. apply Forall_cons in F as [_ F]. done. }
    destruct Hk as (Y1 & Y2 & Y3 & Y4).
    destruct (pay_ref a && negb (Nat.eqb (length ds) 0)) eqn:B.
    - apply andb_true_iff in B as [B1 B2]. apply Pr in B1 as [v B1]. intros _ F. cbn [elems] in F. apply Forall_cons in F as [(_ & _ & F) _].
      assert (Forall (fun k => is_elem k = false) ks) as L by (destruct B1 as [B1|B1]; (eapply F; [|exact B1]); auto). apply Wn in L. injection L as ->. done.
    - split; [done|]. split; [|split; [|split]].
      + cbn [elems]. constructor; [|done]. split; [done|]. split; [done|]. intros nm' v Hn Hp. apply Wn.
        assert (pay_ref a = true) as Pa by (apply Pr; exists v; destruct Hn as [->| ->]; auto). rewrite Pa in B. cbn [andb] in B. by destruct ds.
      + cbn [elems dinfos id]. constructor; [done|done].
      + apply doc_all_eq. split; [|done]. intros k p nx. cbv zeta. split; [by rewrite wfin_parent|]. split.
        { unfold wfin. by destruct (y_ri a), (y_rf a), (y_rc a). }
        destruct (pay_ref a) eqn:Pa.
        * destruct ds; [|done]. unfold expandable. rewrite wfin_ref, Pa by done. by rewrite andb_false_r.
        * destruct ds; [unfold expandable; by rewrite wfin_first|]. rewrite wfin_first, wfin_ref by done. done.
      + intros k. rewrite number_doc_eq. constructor. apply Y4.
  Qed.
End Explain.
