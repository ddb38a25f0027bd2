From Verif Require Import Base UnionDisc.

Section disc.
Context (compound : nat -> bool) (first : nat -> option nat) (resolvable : nat -> bool).

(** Following first fields from [x] ends, after [k] steps, at a type without
    fields that can discriminate. *)
Inductive leads_in : nat -> nat -> Prop :=
  | leads_base x : compound x = false -> resolvable x = true -> leads_in 0 x
  | leads_step k x y : compound x = true -> first x = Some y -> leads_in k y -> leads_in (S k) x.
Definition leads (x : nat) : Prop := exists k, leads_in k x.

Lemma leads_in_det x k1 k2 : leads_in k1 x -> leads_in k2 x -> k1 = k2.
Proof.
  intros H. revert k2. induction H as [x Hc Hr|k x y Hc Hf H IH]; intros k2 H2; inversion H2; subst; try congruence.
  f_equal. apply IH. congruence.
Qed.
Lemma leads_compound x y : compound x = true -> first x = Some y -> leads x <-> leads y.
Proof.
  intros Hc Hf. split; intros [k H].
  - inversion H; subst; [congruence|]. eexists. replace y with y0 by congruence. done.
  - eexists. econstructor; done.
Qed.
Lemma leads_null x : compound x = true -> first x = None -> ~ leads x.
Proof. intros Hc Hf [k H]. inversion H; congruence. Qed.
Lemma leads_simple x : compound x = false -> leads x <-> resolvable x = true.
Proof. intros Hc. split; [intros [k H]; inversion H; congruence|intros H; exists 0; by constructor]. Qed.

(** [path r xs e]: walking from [r] visits the compound types [xs] and then is at [e]. *)
Inductive path : option nat -> list nat -> option nat -> Prop :=
  | path_nil r : path r [] r
  | path_cons x xs e : compound x = true -> path (first x) xs e -> path (Some x) (x :: xs) e.

Lemma path_leads r xs e x : path r xs e -> x ∈ xs ->
  leads x <-> exists y, e = Some y /\ leads y.
Proof.
  intros H. revert x. induction H as [r|x xs e Hc H IH]; intros z Hz; [by apply elem_of_nil in Hz|].
  assert (Hhd : leads x <-> exists y, e = Some y /\ leads y).
  { destruct (first x) as [y|] eqn:Ef.
    - rewrite (leads_compound x y) by done. inversion H as [r E1 E2|y' ys e' Hcy Hp]; subst.
      + split; [eauto|]. intros (y' & E & Hy). congruence.
      + apply IH. left.
    - inversion H; subst. split; [|naive_solver]. intros Hl. by apply leads_null in Hl. }
  apply elem_of_cons in Hz as [->|Hz]; [done|]. by apply IH.
Qed.

(** A cycle leads nowhere. *)
Lemma path_depth x xs y k : path (Some x) xs (Some y) -> leads_in k y -> leads_in (length xs + k) x.
Proof.
  intros H. remember (Some x) as r eqn:Er. remember (Some y) as e eqn:Ee. revert x Er.
  induction H as [r|z xs e Hc H IH]; intros x Er Hk.
  - simplify_eq. done.
  - injection Er as ->. cbn. destruct (first x) as [w|] eqn:Ef.
    + econstructor; [done|done|]. by apply IH.
    + inversion H; subst; done.
Qed.
Lemma cycle_no_lead x xs : path (Some x) xs (Some x) -> xs <> [] -> ~ leads x.
Proof.
  intros H Hne [k Hk]. pose proof (path_depth _ _ _ _ H Hk) as H2.
  pose proof (leads_in_det _ _ _ Hk H2). destruct xs; [done|cbn in *; lia].
Qed.
Lemma path_suffix r xs e x : path r xs e -> x ∈ xs -> exists ys, path (Some x) ys e /\ ys <> [].
Proof.
  intros H. induction H as [r|z xs e Hc H IH]; intros Hx; [by apply elem_of_nil in Hx|].
  apply elem_of_cons in Hx as [->|Hx]; [|by apply IH].
  exists (z :: xs). split; [by constructor|done].
Qed.

Context (n : nat) (Hn : forall x y, x < n -> compound x = true -> first x = Some y -> y < n).

(** Number of types not yet visited. *)
Definition unset (f : nat -> bool) : nat := length (filter (fun x => f x = false) (seq 0 n)).

Lemma unset_upd f x : x < n -> f x = false -> unset (upd f x true) < unset f.
Proof.
  intros Hx Hf. unfold unset.
  assert (H : forall l, x ∈ l -> length (filter (fun y => upd f x true y = false) l) < length (filter (fun y => f y = false) l)).
  2:{ apply H. apply elem_of_seq. lia. }
  assert (H0 : forall l, length (filter (fun y => upd f x true y = false) l) <= length (filter (fun y => f y = false) l)).
  { induction l as [|y l IH]; [done|]. rewrite !filter_cons.
    destruct (decide (upd f x true y = false)) as [H1|H1], (decide (f y = false)) as [H2|H2]; cbn; try lia.
    exfalso. unfold upd in H1. destruct (Nat.eqb_spec y x); congruence. }
  induction l as [|y l IH]; intros Hin; [by apply elem_of_nil in Hin|].
  rewrite !filter_cons.
  destruct (decide (y = x)) as [->|Hne].
  - rewrite decide_False by (unfold upd; by rewrite Nat.eqb_refl). rewrite decide_True by done. cbn. specialize (H0 l). lia.
  - apply elem_of_cons in Hin as [->|Hin]; [done|]. specialize (IH Hin).
    assert (E : upd f x true y = f y) by (unfold upd; by destruct (Nat.eqb_spec y x)).
    rewrite E. destruct (decide (f y = false)); cbn; lia.
Qed.

Lemma mark_loop_ok fuel fl r :
  (forall x, r = Some x -> x < n) -> unset (is_set fl) < fuel ->
  exists xs fl' e, mark_loop compound first resolvable fuel fl r = Some (fl', e) /\
    path r xs e /\ NoDup xs /\ length xs < fuel /\
    (forall x, x ∈ xs -> is_set fl x = false /\ x < n) /\
    match e with
    | None => (forall x, is_set fl' x = true <-> x ∈ xs \/ is_set fl x = true) /\ is_disc fl' = is_disc fl
    | Some y => y < n /\
        ((compound y = false /\ is_set fl y = false /\ y ∉ xs /\
          (forall x, is_set fl' x = true <-> x = y \/ x ∈ xs \/ is_set fl x = true) /\
          is_disc fl' = upd (is_disc fl) y (resolvable y)) \/
         ((is_set fl y = true \/ y ∈ xs) /\
          (forall x, is_set fl' x = true <-> x ∈ xs \/ is_set fl x = true) /\ is_disc fl' = is_disc fl))
    end.
Proof.
  revert fl r. induction fuel as [|fuel IH]; intros fl r Hr Hf; [lia|]. cbn [mark_loop].
  destruct r as [x|].
  2:{ exists [], fl, None. split; [done|]. split; [constructor|]. split; [constructor|]. split; [cbn; lia|].
      split; [intros x Hx; by apply elem_of_nil in Hx|]. split; [|done].
      intros x. rewrite elem_of_nil. split; [by right|]. intros [[]|]; done. }
  specialize (Hr x eq_refl).
  destruct (is_set fl x) eqn:Es.
  { exists [], fl, (Some x). split; [done|]. split; [constructor|]. split; [constructor|]. split; [cbn; lia|].
    split; [intros z Hz; by apply elem_of_nil in Hz|]. split; [done|].
    right. split; [by left|]. split; [|done].
    intros z. rewrite elem_of_nil. split; [by right|]. intros [[]|]; done. }
  destruct (compound x) eqn:Ec.
  - set (fl1 := Flags (upd (is_set fl) x true) (is_disc fl)).
    destruct (IH fl1 (first x)) as (xs & fl' & e & E & Hp & Hnd & Hln & Hu & He).
    { intros y Hy. by apply (Hn x y). }
    { pose proof (unset_upd (is_set fl) x Hr Es). cbn. lia. }
    assert (Hu1 : forall z, is_set fl1 z = true <-> z = x \/ is_set fl z = true).
    { intros z. cbn. unfold upd. destruct (Nat.eqb_spec z x); naive_solver. }
    assert (Hx : x ∉ xs).
    { intros Hx. destruct (Hu x Hx) as [H _]. assert (is_set fl1 x = true) by (apply Hu1; by left). congruence. }
    exists (x :: xs), fl', e. split; [done|]. split; [by constructor|]. split; [by constructor|].
    split; [cbn; lia|]. split.
    { intros z Hz. apply elem_of_cons in Hz as [->|Hz]; [done|]. destruct (Hu z Hz) as [H1 H2]. split; [|done].
      destruct (is_set fl z) eqn:E'; [|done]. assert (is_set fl1 z = true) by (apply Hu1; by right). congruence. }
    destruct e as [y|].
    + destruct He as [Hy He]. split; [done|].
      destruct He as [(H1 & H2 & H3 & H4 & H5)|(H1 & H2 & H3)].
      * left. assert (y <> x) by (intros ->; congruence). split; [done|]. split.
        { destruct (is_set fl y) eqn:E'; [|done]. assert (is_set fl1 y = true) by (apply Hu1; by right). congruence. }
        split; [rewrite elem_of_cons; naive_solver|]. split; [|done].
        intros z. rewrite H4, Hu1, elem_of_cons. naive_solver.
      * right. split; [|split; [|done]].
        -- destruct H1 as [H1|H1]; [|right; by right]. apply Hu1 in H1 as [->|H1]; [right; left|by left].
        -- intros z. rewrite H2, Hu1, elem_of_cons. naive_solver.
    + destruct He as [H1 H2]. split; [|done]. intros z. rewrite H1, Hu1, elem_of_cons. naive_solver.
  - eexists [], _, (Some x). split; [reflexivity|]. split; [constructor|]. split; [constructor|].
    split; [cbn; lia|]. split; [intros z Hz; by apply elem_of_nil in Hz|]. split; [done|]. left.
    split; [done|]. split; [done|]. split; [apply not_elem_of_nil|]. split; [|done].
    intros z. cbn. unfold upd. rewrite elem_of_nil. destruct (Nat.eqb_spec z x); naive_solver.
Qed.

Lemma spread_loop_ok fuel fl r xs y :
  path r xs (Some y) -> NoDup xs -> length xs < fuel -> y ∉ xs ->
  (forall x, x ∈ xs -> is_disc fl x = false) -> is_disc fl y = true ->
  exists fl', spread_loop compound first fuel fl r = Some fl' /\ is_set fl' = is_set fl /\
    (forall x, is_disc fl' x = true <-> x ∈ xs \/ is_disc fl x = true).
Proof.
  intros H. remember (Some y) as e eqn:Ee. revert fl fuel. induction H as [r|x xs e Hc H IH]; intros fl fuel Hnd Hf Hy Hd Hdy.
  - subst r. destruct fuel as [|fuel]; [cbn in Hf; lia|]. cbn [spread_loop]. rewrite Hdy.
    exists fl. split; [done|]. split; [done|]. intros z. rewrite elem_of_nil. naive_solver.
  - apply NoDup_cons in Hnd as [Hx Hnd]. destruct fuel as [|fuel]; [cbn in Hf; lia|].
    cbn [spread_loop]. rewrite (Hd x) by left. rewrite Hc.
    rewrite elem_of_cons in Hy.
    destruct (IH Ee (Flags (is_set fl) (upd (is_disc fl) x true)) fuel) as (fl' & E & H1 & H2).
    + done.
    + cbn in Hf. lia.
    + naive_solver.
    + intros z Hz. cbn. unfold upd. destruct (Nat.eqb_spec z x) as [->|]; [done|]. apply Hd. by right.
    + cbn. unfold upd. destruct (Nat.eqb_spec y x); [done|]. done.
    + exists fl'. split; [done|]. split; [done|]. intros z. rewrite H2, elem_of_cons. cbn. unfold upd.
      destruct (Nat.eqb_spec z x); naive_solver.
Qed.

(** Invariant between calls. *)
Definition dinv (fl : flags) : Prop :=
  forall x, (is_disc fl x = true -> is_set fl x = true) /\ (is_set fl x = true -> (is_disc fl x = true <-> leads x)).

Lemma union_discriminator_ok fuel fl t :
  dinv fl -> t < n -> n < fuel ->
  exists fl', union_discriminator compound first resolvable fuel fl t = Some fl' /\ dinv fl' /\
    is_set fl' t = true /\ (forall x, is_set fl x = true -> is_set fl' x = true).
Proof.
  intros Hi Ht Hf. unfold union_discriminator.
  destruct (mark_loop_ok fuel fl (Some t)) as (xs & fl1 & e & -> & Hp & Hnd & Hln & Hu & He).
  { intros x [= <-]. done. }
  { unfold unset. pose proof (filter_length (fun x => is_set fl x = false) (seq 0 n)) as H.
    rewrite seq_length in H. lia. }
  cbn [mbind option_bind].
  assert (Hd0 : forall x, x ∈ xs -> is_disc fl x = false).
  { intros x Hx. destruct (is_disc fl x) eqn:E; [|done]. apply (proj1 (Hi x)) in E. destruct (Hu x Hx) as [E' _]. congruence. }
  assert (Hl : forall x, x ∈ xs -> leads x <-> exists y, e = Some y /\ leads y) by (intros; by eapply path_leads).
  assert (Htx : t ∈ xs \/ (xs = [] /\ e = Some t)).
  { inversion Hp; subst; [by right|]. left. left. }
  destruct e as [y|].
  2:{ destruct He as [H1 H2]. exists fl1. split; [done|]. split.
      - intros x. rewrite H2. split; [intros Hd; apply H1; right; by apply (Hi x)|].
        intros Hs. apply H1 in Hs as [Hx|Hs]; [|by apply (Hi x)].
        rewrite (Hd0 x Hx), (Hl x Hx). naive_solver.
      - split; [apply H1; naive_solver|]. intros x Hs. apply H1. by right. }
  destruct He as [Hyn [(Hc & Hsy & Hy & Hs & Hd)|(Hsy & Hs & Hd)]].
  - (* a type without fields *)
    assert (Hdy : is_disc fl1 y = resolvable y) by (rewrite Hd; unfold upd; by rewrite Nat.eqb_refl).
    assert (Hdx : forall x, x <> y -> is_disc fl1 x = is_disc fl x).
    { intros x Hx. rewrite Hd. unfold upd. destruct (Nat.eqb_spec x y); [done|]. done. }
    assert (Hset : is_set fl1 t = true /\ forall x, is_set fl x = true -> is_set fl1 x = true).
    { split; [apply Hs; naive_solver|]. intros x Hx. apply Hs. naive_solver. }
    rewrite Hdy. destruct (resolvable y) eqn:Er.
    + destruct (spread_loop_ok fuel fl1 (Some t) xs y Hp Hnd Hln Hy) as (fl2 & -> & H1 & H2).
      { intros x Hx. rewrite Hdx; [by apply Hd0|]. intros ->. done. }
      { congruence. }
      exists fl2. split; [done|]. rewrite H1. split; [|done].
      intros x. rewrite H1, H2, Hs. split.
      { destruct (decide (x = y)) as [->|Hxy]; [naive_solver|]. rewrite Hdx by done.
        intros [|Hd']; [naive_solver|]. apply (proj1 (Hi x)) in Hd'. naive_solver. }
      intros [->|[Hx|Hx]].
      * rewrite leads_simple by done. rewrite Hdy. naive_solver.
      * rewrite (Hl x Hx). split; [|naive_solver]. intros _. exists y. split; [done|]. by apply leads_simple.
      * assert (x <> y) by (intros ->; congruence). rewrite Hdx by done.
        assert (x ∉ xs) by (intros Hx'; destruct (Hu x Hx') as [E' _]; congruence).
        destruct (Hi x) as [_ Hi2]. specialize (Hi2 Hx). naive_solver.
    + exists fl1. split; [done|]. split; [|done]. intros x. rewrite Hs.
      destruct (decide (x = y)) as [->|Hxy].
      { rewrite Hdy. split; [done|]. intros _. rewrite leads_simple by done. rewrite Er. done. }
      rewrite Hdx by done. split; [intros Hd'; right; right; by apply (Hi x)|].
      intros [->|[Hx|Hx]]; [done| |by apply (Hi x)].
      rewrite (Hd0 x Hx), (Hl x Hx). split; [done|]. intros (y' & [= <-] & Hly).
      apply leads_simple in Hly; [congruence|done].
  - (* a type visited before *)
    assert (Hset : is_set fl1 t = true /\ forall x, is_set fl x = true -> is_set fl1 x = true).
    { split; [|intros x Hx; apply Hs; naive_solver].
      apply Hs. destruct Htx as [|[-> [= ->]]]; [by left|]. destruct Hsy as [|Hsy]; [by right|]. by apply elem_of_nil in Hsy. }
    destruct (is_disc fl1 y) eqn:Edy; rewrite Hd in Edy.
    + assert (Hy : y ∉ xs) by (intros Hy; specialize (Hd0 y Hy); congruence).
      destruct (spread_loop_ok fuel fl1 (Some t) xs y Hp Hnd Hln Hy) as (fl2 & -> & H1 & H2).
      { intros x Hx. rewrite Hd. by apply Hd0. }
      { by rewrite Hd. }
      exists fl2. split; [done|]. rewrite H1. split; [|done].
      assert (Hly : leads y). { destruct Hsy as [Hsy|]; [|done]. by apply (Hi y) in Hsy as [Hsy _]; apply Hsy. }
      intros x. rewrite H1, H2, Hs, Hd. split.
      { intros [|Hd']; [naive_solver|]. apply (proj1 (Hi x)) in Hd'. naive_solver. }
      intros [Hx|Hx].
      * rewrite (Hl x Hx). naive_solver.
      * assert (x ∉ xs) by (intros Hx'; destruct (Hu x Hx') as [E' _]; congruence).
        destruct (Hi x) as [_ Hi2]. specialize (Hi2 Hx). naive_solver.
    + exists fl1. split; [done|]. split; [|done].
      assert (Hly : ~ leads y).
      { destruct (decide (y ∈ xs)) as [Hy|Hy].
        - destruct (path_suffix _ _ _ _ Hp Hy) as (ys & Hc & Hne). by eapply cycle_no_lead.
        - destruct Hsy as [Hsy|]; [|done]. apply (Hi y) in Hsy. intros Hl'. apply Hsy in Hl'. congruence. }
      intros x. rewrite Hs, Hd. split; [intros Hd'; right; by apply (Hi x)|].
      intros [Hx|Hx]; [|by apply (Hi x)].
      rewrite (Hd0 x Hx), (Hl x Hx). split; [done|]. intros (y' & [= <-] & Hl'). done.
Qed.

Lemma union_discriminators_ok fuel fl ts :
  dinv fl -> (forall t, t ∈ ts -> t < n) -> n < fuel ->
  exists fl', union_discriminators compound first resolvable fuel fl ts = Some fl' /\ dinv fl' /\
    (forall t, t ∈ ts -> is_set fl' t = true) /\ (forall x, is_set fl x = true -> is_set fl' x = true).
Proof.
  intros Hi Ht Hf. revert fl Hi. induction ts as [|t ts IH]; intros fl Hi.
  - exists fl. split; [done|]. split; [done|]. split; [intros t H; by apply elem_of_nil in H|done].
  - cbn [union_discriminators].
    destruct (union_discriminator_ok fuel fl t Hi) as (fl1 & -> & Hi1 & Hs1 & Hm1); [apply Ht; left|done|].
    cbn [mbind option_bind].
    destruct (IH ltac:(intros x Hx; apply Ht; by right) fl1 Hi1) as (fl2 & E & Hi2 & Hs2 & Hm2).
    exists fl2. split; [done|]. split; [done|]. split.
    + intros x Hx. apply elem_of_cons in Hx as [->|Hx]; [by apply Hm2|by apply Hs2].
    + intros x Hx. apply Hm2. by apply Hm1.
Qed.
End disc.
