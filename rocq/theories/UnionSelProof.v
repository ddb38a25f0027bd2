(** Lemmas about UnionSel.v: the loop ends and chooses the member meant by the value
    found. *)
From Verif Require Import Base NumStr Enum UnionDiscProof UnionSel UnionSelSpec.
Local Open Scope Z_scope.

Lemma field_named_some nm l i : field_named nm l = Some i <-> l !! i = Some nm /\ forall j, (j < i)%nat -> l !! j <> Some nm.
Proof.
  revert i. induction l as [|x l IH]; intros i; cbn.
  - split; [done|]. intros [H _]. done.
  - destruct (decide (x = nm)) as [->|Hx].
    + split.
      * intros [= <-]. split; [done|]. intros j Hj. lia.
      * intros [Hi Hj]. destruct i as [|i]; [done|]. exfalso. apply (Hj 0%nat); [lia|done].
    + destruct (field_named nm l) as [k|] eqn:E; cbn.
      * destruct (IH k) as [IH1 _]. destruct (IH1 eq_refl) as [Hk Hmin]. split.
        -- intros [= <-]. split; [done|]. intros [|j] Hj; cbn; [congruence|]. apply Hmin. lia.
        -- intros [Hi Hj]. destruct i as [|i]; [cbn in Hi; congruence|]. cbn in Hi. f_equal. f_equal.
           assert (Some k = Some i) as [= ->]; [|done]. apply IH. split; [done|]. intros j Hji. apply (Hj (S j)). lia.
      * split; [done|]. intros [Hi Hj]. destruct i as [|i]; [cbn in Hi; congruence|]. cbn in Hi.
        assert (None = Some i) as ?; [|done]. apply IH. split; [done|]. intros j Hji. apply (Hj (S j)). lia.
Qed.
Lemma field_named_none nm u : field_named nm (u_names u) = None -> forall g, ~ named u nm g.
Proof. intros H g Hg. apply field_named_some in Hg. congruence. Qed.

Lemma over_find_some v l f : over_find v l = Some f -> exists k, l !! k = Some (v, f) /\ forall j g, (j < k)%nat -> l !! j <> Some (v, g).
Proof.
  induction l as [|[x h] l IH]; cbn; [done|]. destruct (x =? v) eqn:E.
  - intros [= ->]. exists 0%nat. split; [cbn; f_equal; f_equal; lia|]. intros j g Hj. lia.
  - intros H. destruct (IH H) as (k & Hk & Hmin). exists (S k). split; [done|].
    intros [|j] g Hj; cbn; [intros [= -> _]; lia|]. apply Hmin. lia.
Qed.
Lemma over_find_none v l : over_find v l = None -> forall k g, l !! k <> Some (v, g).
Proof.
  induction l as [|[x h] l IH]; cbn; [done|]. destruct (x =? v) eqn:E; [done|].
  intros H [|k] g; cbn; [intros [= -> _]; lia|]. by apply IH.
Qed.

Lemma override_some u x f : override u x = Some f -> overridden u x f.
Proof. apply over_find_some. Qed.
Lemma override_none u x : override u x = None -> forall g, ~ overridden u x g.
Proof. intros H g (k & Hk & _). by eapply over_find_none. Qed.

(** A value given to a union with members. *)
Definition ok_sel (u : udesc) (r : option nat) (v : dval) : Prop :=
  match r with Some f => means u v f | None => u_names u = [] end.

Lemma by_name_none u : ok_sel u (by_name u None) DvNone.
Proof. unfold ok_sel, by_name, first_field. destruct (u_names u); done. Qed.
Lemma first_ok u : match first_field u with Some f => f = 0%nat | None => u_names u = [] end.
Proof. unfold first_field. destruct (u_names u); done. Qed.
Lemma by_name_means u nm r : by_name u (Some nm) = r ->
  match r with Some f => if decide (nm = []) then f = 0%nat else means_name u nm f | None => u_names u = [] end.
Proof.
  intros <-. unfold by_name. pose proof (first_ok u) as F. destruct nm as [|c t].
  - destruct (first_field u); [|done]. by rewrite decide_True by done.
  - destruct (field_named (c :: t) (u_names u)) as [i|] eqn:E.
    + rewrite decide_False by done. left. by apply field_named_some.
    + destruct (first_field u); [|done]. rewrite decide_False by done. right. split; [by apply field_named_none|done].
Qed.

Lemma by_idx_small u x : - 2 ^ 31 <= x < 2 ^ 31 ->
  match by_idx u x with
  | Some f => Z.of_nat f = if decide (0 <= x < Z.of_nat (length (u_names u))) then x else 0
  | None => u_names u = []
  end.
Proof.
  intros Hx. unfold by_idx. destruct (u_names u) as [|n l] eqn:El; [done|]. rewrite <- El in *.
  assert (E : read_as I32 x = x).
  { unfold read_as. cbn. change (Z.pow_pos 2 31) with (2 ^ 31). rewrite Z.mod_small; lia. }
  rewrite E. destruct (decide (0 <= x < Z.of_nat (length (u_names u)))) as [H|H].
  - replace ((x <? 0) || (Z.of_nat (length (u_names u)) <=? x)) with false by lia. lia.
  - replace ((x <? 0) || (Z.of_nat (length (u_names u)) <=? x)) with true by lia. done.
Qed.
Lemma by_idx_none u x : by_idx u x = None -> u_names u = [].
Proof. unfold by_idx. destruct (u_names u); done. Qed.
Lemma by_idx_lt u x f : by_idx u x = Some f -> (f < length (u_names u))%nat.
Proof.
  unfold by_idx. destruct (u_names u) as [|n l] eqn:El; [done|]. rewrite <- El. intros [= <-].
  assert (0 < length (u_names u))%nat by (rewrite El; cbn; lia).
  destruct ((read_as I32 x <? 0) || (Z.of_nat (length (u_names u)) <=? read_as I32 x)) eqn:E; lia.
Qed.

Lemma by_value_ok u x : ok_sel u (by_value u x) (DvNum x).
Proof.
  unfold by_value, ok_sel. destruct (override u x) as [f|] eqn:E; [left; by apply override_some|].
  destruct (by_idx u x) as [f|] eqn:Ei; [|by eapply by_idx_none].
  right. split; [by apply override_none|]. intros Hx. pose proof (by_idx_small u x Hx) as H. by rewrite Ei in H.
Qed.
Lemma by_enum_ok u meta x : ok_sel u (by_enum u meta x) (DvEnum x (meta (x mod 2 ^ 64))).
Proof.
  unfold by_enum, ok_sel. destruct (override u x) as [f|] eqn:E; [left; by apply override_some|].
  destruct (meta (x mod 2 ^ 64)) as [nm|].
  - pose proof (by_name_means u nm _ eq_refl) as H. destruct (by_name u (Some nm)); [|done].
    right. split; [by apply override_none|done].
  - pose proof (by_name_none u) as H. unfold ok_sel in H. destruct (by_name u None); [|done].
    right. split; [by apply override_none|done].
Qed.
Lemma by_name_ok u nm : ok_sel u (by_name u (Some nm)) (DvName nm).
Proof. pose proof (by_name_means u nm _ eq_refl) as H. unfold ok_sel, means. by destruct (by_name u (Some nm)). Qed.

Section Loop.
  Context (tds : nat -> tdesc) (M : memory) (u : udesc).
  Context (firsts_wf : forall t f, t_first (tds t) = Some f -> fd_wf f).

  (** The loop started with a type ends and has found a value of the C type. *)
  Definition sel (t : dty) (fd : fdesc) (a : Z) (c : cty) : Prop :=
    exists n r v, (forall m, (n <= m)%nat -> by_type tds M u m t fd a = Some r) /\ found tds M c a v /\ ok_sel u r v.

  (** One more round. *)
  Lemma sel_step t fd a c t' fd' a' c' :
    (forall m, by_type tds M u (S m) t fd a = by_type tds M u m t' fd' a') ->
    (forall v, found tds M c' a' v -> found tds M c a v) -> sel t' fd' a' c' -> sel t fd a c.
  Proof.
    intros H1 H2 (n & r & v & Hn & Hf & Ho). exists (S n), r, v. split; [|split; [by apply H2|done]].
    intros [|m] Hm; [lia|]. rewrite H1. apply Hn. lia.
  Qed.
  Lemma sel_end t fd a c r v :
    (forall m, by_type tds M u (S m) t fd a = Some r) -> found tds M c a v -> ok_sel u r v -> sel t fd a c.
  Proof. intros H1 H2 H3. exists 1%nat, r, v. split; [|done]. intros [|m] Hm; [lia|]. apply H1. Qed.

  (** Chains of at most [k] first fields below a flagged type. *)
  Definition short (k : nat) (fd : fdesc) : Prop :=
    forall t, d_td fd = Some t -> t_disc (tds t) = true ->
      exists j, (j <= k)%nat /\ leads_in (fun t => bool_decide (is_Some (t_first (tds t)))) (fun t => t_first (tds t) ≫= d_td) (fun _ => true) j t.

  Lemma sel_simple t fd a : t <> DtArray -> t <> DtPointer ->
    (t = DtVoid -> d_aux fd = DtVoid \/ d_aux fd = DtArray \/ d_aux fd = DtPointer \/ d_aux fd = DtNone) ->
    (forall t f, d_td fd = Some t -> t_disc (tds t) = true -> t_first (tds t) = Some f -> sel (d_type f) f (a + d_off f) (field_type f)) ->
    sel t fd a (simple t fd).
  Proof.
    intros Ha Hp Hv IH. destruct t; try done; cbn [simple].
    - eapply sel_end; [done|constructor|apply by_name_none].
    - eapply sel_end; [intros m; cbn; rewrite decide_True by auto; done|constructor|apply by_name_none].
    - eapply sel_end; [intros m; cbn; done|constructor|].
      replace (if decide (m_data M a mod 256 = 0) then 0 else 1) with (if m_data M a mod 256 =? 0 then 0 else 1); [apply by_value_ok|].
      destruct (decide (m_data M a mod 256 = 0)), (m_data M a mod 256 =? 0) eqn:E; lia.
    - eapply sel_end; [intros m; cbn; done|constructor|apply by_value_ok].
    - destruct (d_td fd ≫= (fun t => t_enum (tds t))) as [[e meta]|] eqn:E.
      + apply bind_Some in E as (t & Et & E). rewrite Et.
        eapply sel_end; [intros m; cbn; rewrite Et; cbn; rewrite E; done|eapply F_bits_enum; done|apply by_enum_ok].
      + eapply sel_end; [intros m; cbn; rewrite E; done| |apply by_value_ok].
        constructor. intros t Et. rewrite Et in E. done.
    - eapply sel_end; [intros m; cbn; done|constructor|apply by_name_ok].
    - destruct (m_ptr M a =? 0) eqn:E.
      + eapply sel_end; [intros m; cbn; rewrite E; done|apply F_string_null; lia|apply by_name_none].
      + eapply sel_end; [intros m; cbn; rewrite E; done|apply F_string; lia|apply by_name_ok].
    - destruct (d_td fd) as [t|] eqn:Et.
      + destruct (t_enum (tds t)) as [[e meta]|] eqn:E.
        * eapply sel_end; [intros m; cbn; rewrite Et, E; done|eapply F_enum; done|apply by_enum_ok].
        * eapply sel_end; [intros m; cbn; rewrite Et, E; done|apply F_enum_none; congruence|apply by_name_none].
      + eapply sel_end; [intros m; cbn; rewrite Et; done|apply F_enum_none; congruence|apply by_name_none].
    - destruct (d_td fd) as [t|] eqn:Et.
      + destruct (t_disc (tds t)) eqn:Ed.
        * destruct (t_first (tds t)) as [f|] eqn:Ef.
          -- destruct (decide (d_type f = DtNone)) as [Hn|Hn].
             ++ eapply sel_end; [intros m; cbn; rewrite Et; cbn; rewrite Ed, Ef, decide_True by done; done| |apply by_name_none].
                eapply F_comp; [done|done|]. unfold field_type. rewrite Hn. constructor.
             ++ eapply sel_step; [intros m; cbn; rewrite Et; cbn; rewrite Ed, Ef, decide_False by done; done|
                  intros v Hf; by eapply F_comp|by eapply IH].
          -- eapply sel_end; [intros m; cbn; rewrite Et; cbn; rewrite Ed, Ef; done|apply F_comp_none; naive_solver|apply by_name_none].
        * eapply sel_end; [intros m; cbn; rewrite Et; cbn; rewrite Ed; done|apply F_comp_none; naive_solver|apply by_name_none].
      + eapply sel_end; [intros m; cbn; rewrite Et; done|apply F_comp_none; naive_solver|apply by_name_none].
    - eapply sel_end; [done|constructor|apply by_name_none].
  Qed.

  (** Following one pointer. *)
  Lemma sel_pointer t fd a c fd' :
    (forall m, by_type tds M u (S m) t fd a =
      if m_ptr M a =? 0 then Some (by_name u None) else by_type tds M u m (d_aux fd') (if decide (d_aux fd' = DtPointer) then pointer_fd fd' else fd') (m_ptr M a)) ->
    (m_ptr M a <> 0 -> sel (d_aux fd') (if decide (d_aux fd' = DtPointer) then pointer_fd fd' else fd') (m_ptr M a) c) ->
    sel t fd a (CPtr c).
  Proof.
    intros H Hs. destruct (m_ptr M a =? 0) eqn:E.
    - eapply sel_end; [done|apply F_ptr_null; lia|apply by_name_none].
    - eapply sel_step; [done|intros v Hv; apply F_ptr; [lia|done]|]. apply Hs. lia.
  Qed.

  Lemma sel_field k fd a : fd_wf fd -> short k fd -> sel (d_type fd) fd a (field_type fd).
  Proof.
    revert fd a. induction k as [k IHk] using lt_wf_ind. intros fd a (W1 & W2 & W3) Hk.
    assert (IH : forall fd' a', d_td fd' = d_td fd -> forall t f, d_td fd' = Some t -> t_disc (tds t) = true -> t_first (tds t) = Some f ->
      sel (d_type f) f (a' + d_off f) (field_type f)).
    { intros fd' a' E t f Et Ed Ef. rewrite E in Et. destruct (Hk t Et Ed) as (j & Hj & L). inversion L as [? Hc|j' ? y Hc Hf L']; subst.
      - rewrite Ef in Hc. by case_bool_decide as X; [|destruct X].
      - apply (IHk j'); [lia|by eapply firsts_wf|]. intros t' Et' Ed'. exists j'. split; [lia|]. rewrite Ef in Hf. cbn in Hf. congruence. }
    assert (Q : forall a, sel (d_base fd) (pointer_fd fd) a (simple (d_base fd) fd)).
    { intros a'. change (simple (d_base fd) fd) with (simple (d_base fd) (pointer_fd fd)). apply sel_simple; [done|done| |by apply IH].
      intros E. cbn. auto. }
    assert (P : forall a, d_aux fd <> DtPointer -> sel (d_aux fd) fd a (simple (d_aux fd) fd)).
    { intros a' Hp. apply sel_simple; [done|done|auto|by apply IH]. }
    unfold field_type. destruct (d_type fd) eqn:Et; try (apply sel_simple; [done|done|done|by apply IH]).
    - destruct (decide (d_aux fd = DtVoid \/ d_aux fd = DtArray \/ d_aux fd = DtPointer \/ d_aux fd = DtNone)) as [H|H].
      + eapply sel_end; [intros m; cbn; rewrite decide_True by done; done| |apply by_name_none].
        destruct H as [->|[->|[->| ->]]]; constructor.
      + eapply sel_step; [intros m; cbn; rewrite decide_False by done; done|done|]. apply P. tauto.
    - unfold element. destruct (decide (d_aux fd = DtPointer)) as [H|H].
      + assert (S' : sel DtArray fd a (CPtr (simple (d_base fd) fd))).
        { eapply (sel_pointer _ _ _ _ (pointer_fd fd)).
          - intros m. cbn. rewrite decide_True by done. done.
          - intros _. cbn. rewrite decide_False by done. apply Q. }
        destruct S' as (n & r & v & Hn & Hf & Ho). exists n, r, v. split; [done|split; [by constructor|done]].
      + eapply sel_step; [intros m; cbn; rewrite decide_False by done; done|intros v Hv; by constructor|]. by apply P.
    - unfold element. destruct (decide (d_aux fd = DtPointer)) as [H|H].
      + eapply (sel_pointer _ _ _ _ fd); [done|]. intros _. rewrite H, decide_True by done.
        eapply (sel_pointer _ _ _ _ (pointer_fd fd)); [done|]. intros _. cbn. rewrite decide_False by done. apply Q.
      + eapply (sel_pointer _ _ _ _ fd); [done|]. intros _. rewrite decide_False by done. by apply P.
  Qed.
End Loop.

(** Members chosen exist. *)
Definition overs_wf (u : udesc) : Prop := forall k x f, u_over u !! k = Some (x, f) -> (f < length (u_names u))%nat.
Lemma first_lt u f : first_field u = Some f -> (f < length (u_names u))%nat.
Proof. unfold first_field. destruct (u_names u); [done|]. intros [= <-]. cbn. lia. Qed.
Lemma by_name_lt u nm f : by_name u nm = Some f -> (f < length (u_names u))%nat.
Proof.
  unfold by_name. destruct nm as [[|c t]|]; [apply first_lt| |apply first_lt].
  destruct (field_named (c :: t) (u_names u)) as [i|] eqn:E; [|apply first_lt].
  intros [= <-]. apply field_named_some in E as [E _]. by eapply lookup_lt_Some.
Qed.
Lemma override_lt u x f : overs_wf u -> override u x = Some f -> (f < length (u_names u))%nat.
Proof. intros W H. apply over_find_some in H as (k & H & _). by eapply W. Qed.
Lemma by_value_lt u x f : overs_wf u -> by_value u x = Some f -> (f < length (u_names u))%nat.
Proof. intros W. unfold by_value. destruct (override u x) eqn:E; [intros [= <-]; by eapply override_lt|apply by_idx_lt]. Qed.
Lemma by_enum_lt u meta x f : overs_wf u -> by_enum u meta x = Some f -> (f < length (u_names u))%nat.
Proof. intros W. unfold by_enum. destruct (override u x) eqn:E; [intros [= <-]; by eapply override_lt|apply by_name_lt]. Qed.
Lemma by_type_lt tds M u m t fd a f : overs_wf u -> by_type tds M u m t fd a = Some (Some f) -> (f < length (u_names u))%nat.
Proof.
  intros W. revert t fd a. induction m as [|m IH]; intros t fd a H; [done|]. cbn [by_type] in H.
  destruct t; cbv beta iota zeta in H; repeat (case_match; try done);
    first [by eapply IH|apply (inj Some) in H; first [by eapply by_value_lt|by eapply by_enum_lt|by eapply by_name_lt]].
Qed.

(** The value found in an object is one only. *)
Lemma found_det tds M c a v : found tds M c a v -> forall v', found tds M c a v' -> v = v'.
Proof.
  induction 1 as [a|a|t a|sh w td a H|sh w t e meta a H|a|a H|a H|t e meta a H|td a H|c a v H _ IH|c a H|c a v _ IH|t f a v Hd Hf _ IH|td a H];
    intros v' H'; inversion H'; subst; try done; try congruence; try (by apply IH);
    repeat match goal with
    | H : forall t, Some ?x = Some t -> _ |- _ => specialize (H x eq_refl)
    | H : _ \/ _ |- _ => destruct H
    end; try congruence.
  apply IH. congruence.
Qed.
(** A value means one member only, as long as it fits an int. *)
Lemma means_name_det u nm f g : means_name u nm f -> means_name u nm g -> f = g.
Proof.
  intros [Hf|[Hf ->]] [Hg|[Hg ->]]; [|by apply Hg in Hf|by apply Hf in Hg|done].
  apply field_named_some in Hf, Hg. congruence.
Qed.
Lemma overridden_det u x f g : overridden u x f -> overridden u x g -> f = g.
Proof.
  intros (k & Hk & Mk) (j & Hj & Mj). destruct (decide (k < j)%nat) as [H|H]; [by apply Mj in Hk|].
  destruct (decide (j < k)%nat) as [H'|H']; [by apply Mk in Hj|]. assert (k = j) as -> by lia. congruence.
Qed.
Lemma means_det u v f g : (forall x, v = DvNum x -> - 2 ^ 31 <= x < 2 ^ 31) -> means u v f -> means u v g -> f = g.
Proof.
  intros Hx. destruct v as [x|x meta|nm|]; cbn [means].
  - specialize (Hx x eq_refl). intros [Hf|[Nf Hf]] [Hg|[Ng Hg]]; [by eapply overridden_det|by apply Ng in Hf|by apply Nf in Hg|].
    specialize (Hf Hx). specialize (Hg Hx). lia.
  - intros [Hf|[Nf Hf]] [Hg|[Ng Hg]]; [by eapply overridden_det|by apply Ng in Hf|by apply Nf in Hg|].
    destruct meta as [nm|]; [|congruence]. destruct (decide (nm = [])); [congruence|by eapply means_name_det].
  - destruct (decide (nm = [])); [congruence|apply means_name_det].
  - congruence.
Qed.
