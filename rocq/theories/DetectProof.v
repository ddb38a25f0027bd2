(** Proofs about [Detect]: looking up names, stars and brackets. *)
From Verif Require Import Base TypeName TypeNameProof ArrayGeom ArrayGeomProof Detect P_TypeName.
Local Open Scope list_scope.
Local Open Scope Z_scope.

(** [r] is [base] with [n] stars behind it, white space before any of them. *)
Inductive starred (base : list Z) : nat -> list Z -> Prop :=
| starred_0 : starred base 0 base
| starred_S n r sp : starred base n r -> Forall white sp -> starred base (S n) (r ++ sp ++ [42]).

(** A name: no star in it, no white space at its end. *)
Definition type_word (base : list Z) : Prop :=
  42 ∉ base /\ exists q c, base = q ++ [c] /\ ~ white c.

Lemma starred_end base n r : type_word base -> starred base n r -> exists q c, r = q ++ [c] /\ ~ white c.
Proof.
  intros [_ Hb] H. destruct H as [|n r sp H Hsp]; [done|]. exists (r ++ sp), 42. split; [by rewrite app_assoc|].
  unfold white. lia.
Qed.
Lemma starred_strip base n r : type_word base -> starred base (S n) r ->
  exists r', type_is_a_pointer r = Some (true, r') /\ starred base n r'.
Proof.
  intros Hb H. inversion H as [|n' r' sp H' Hsp]; subst. exists r'. split; [|done].
  destruct (starred_end _ _ _ Hb H') as (q & c & -> & Hc). rewrite <- app_assoc. by apply C39_pointer.
Qed.
Lemma starred_base base : type_word base -> type_is_a_pointer base = Some (false, base).
Proof.
  intros [Hs _]. apply C39_not_a_pointer. intros q ->. apply Hs. rewrite elem_of_app, elem_of_list_singleton. auto.
Qed.
Lemma starred_star base n r : starred base (S n) r -> 42 ∈ r.
Proof. intros H. inversion H; subst. rewrite !elem_of_app, elem_of_list_singleton. auto. Qed.
Lemma starred_zero base r : starred base 0 r -> r = base.
Proof. intros H. by inversion H. Qed.

Section reg.
  Context (reg : list tdesc).
  Lemma by_name_found i d : NoDup (map d_name reg) -> reg !! i = Some d -> td_by_name reg (d_name d) = Some i.
  Proof.
    intros Hn Hi. unfold td_by_name. destruct (list_find _ reg) as [[j e]|] eqn:E.
    - apply list_find_Some in E as (Hj & Hname & _). cbn. f_equal.
      eapply NoDup_lookup; [exact Hn|..]; change (map d_name reg) with (d_name <$> reg);
        rewrite list_lookup_fmap; [rewrite Hj|rewrite Hi]; cbn; [by rewrite Hname|done].
    - apply list_find_None in E. rewrite Forall_forall in E. exfalso. eapply E; [by eapply elem_of_list_lookup_2|done].
  Qed.
  Lemma by_name_none name : (forall d, d ∈ reg -> d_name d <> name) -> td_by_name reg name = None.
  Proof.
    intros H. unfold td_by_name. destruct (list_find _ reg) as [[j e]|] eqn:E; [|done].
    apply list_find_Some in E as (Hj & Hname & _). exfalso. eapply H; [by eapply elem_of_list_lookup_2|done].
  Qed.
  Lemma by_name_star r : Forall (fun d => 42 ∉ d_name d) reg -> 42 ∈ r -> td_by_name reg r = None.
  Proof. intros H Hr. apply by_name_none. intros d Hd <-. rewrite Forall_forall in H. by eapply H. Qed.
  Lemma by_name_some name i : td_by_name reg name = Some i -> exists d, reg !! i = Some d /\ d_name d = name.
  Proof.
    unfold td_by_name. destruct (list_find _ reg) as [[j e]|] eqn:E; [|done].
    apply list_find_Some in E as (Hj & Hname & _). cbn. intros [= <-]. eauto.
  Qed.
End reg.

(** *** Brackets *)
(** An extent in brackets. *)
Definition bracket (ds : list Z) : list Z := [91] ++ ds ++ [93].
Definition digits (ds : list Z) : Prop := ds <> [] /\ Forall (fun c => 48 <= c <= 57) ds.
(** The number written in decimal. *)
Definition number (ds : list Z) : Z := foldl (fun a c => 10 * a + (c - 48)) 0 ds.

Lemma atoi_digits_ok ds acc rest : Forall (fun c => 48 <= c <= 57) ds ->
  atoi_digits acc (ds ++ 93 :: rest) = foldl (fun a c => 10 * a + (c - 48)) acc ds.
Proof.
  intros H. revert acc. induction H as [|c ds Hc H IH]; intros acc; [done|]. cbn [app atoi_digits foldl].
  rewrite (proj2 (Z.leb_le 48 c)), (proj2 (Z.leb_le c 57)) by lia. apply IH.
Qed.
Lemma atoi_ok ds rest : digits ds -> 0 <= number ds < 2 ^ 31 -> atoi (ds ++ 93 :: rest) = Some (number ds).
Proof.
  intros [Hne Hd] Hv. unfold atoi. destruct ds as [|c ds]; [done|]. pose proof (Forall_inv Hd) as Hc. cbn beta in Hc.
  cbn [app skip_blanks].
  assert (isspace c = false) as -> by (unfold isspace; lia).
  rewrite (proj2 (Z.eqb_neq c 45)), (proj2 (Z.eqb_neq c 43)) by lia.
  change (c :: ds ++ 93 :: rest) with ((c :: ds) ++ 93 :: rest). rewrite atoi_digits_ok by done. fold (number (c :: ds)).
  rewrite (proj2 (Z.leb_le _ _)), (proj2 (Z.ltb_lt _ _)) by lia. done.
Qed.
Lemma after_plain t b : 91 ∉ t -> after_brackets (t ++ b) = after_brackets b.
Proof.
  induction t as [|c t IH]; intros H; [done|]. cbn. apply not_elem_of_cons in H as [Hc H].
  rewrite (proj2 (Z.eqb_neq c 91)) by lia. by apply IH.
Qed.
Lemma before_plain t b : 91 ∉ t -> before_bracket (t ++ b) = t ++ before_bracket b.
Proof.
  induction t as [|c t IH]; intros H; [done|]. cbn. apply not_elem_of_cons in H as [Hc H].
  rewrite (proj2 (Z.eqb_neq c 91)) by lia. by rewrite IH.
Qed.
Lemma extents_read exts : Forall (fun ds => digits ds /\ 0 <= number ds < 2 ^ 31) exts ->
  mapM (fun t => n ← atoi t; Some (n mod 2 ^ 32)) (after_brackets (concat (map bracket exts))) = Some (map number exts).
Proof.
  intros H. induction H as [|ds exts [Hd Hv] H IH]; [done|]. cbn [map concat]. unfold bracket at 1.
  rewrite <- !app_assoc. cbn [app after_brackets]. cbn [Z.eqb Pos.eqb].
  rewrite after_plain.
  2:{ intros Hin. destruct Hd as [_ Hd]. rewrite Forall_forall in Hd. specialize (Hd _ Hin). lia. }
  cbn [after_brackets]. cbn [Z.eqb Pos.eqb mapM]. rewrite atoi_ok by done. cbn [mbind option_bind].
  rewrite Z.mod_small by lia. rewrite IH. done.
Qed.
Lemma dims_small counts dims : (length dims + length counts <= 4)%nat -> add_dims dims counts = Some (dims ++ counts).
Proof.
  revert dims. induction counts as [|c counts IH]; intros dims H; [by rewrite app_nil_r|]. cbn in *.
  unfold add_dim. rewrite (proj2 (Nat.ltb_lt _ _)) by (unfold max_dims; lia). cbn [mbind option_bind].
  rewrite IH by (rewrite app_length; cbn; lia). by rewrite <- app_assoc.
Qed.

(** The text without brackets, and what is found in them. *)
Lemma array_text s t exts : 91 ∉ t -> t <> [] ->
  Forall (fun ds => digits ds /\ 0 <= number ds < 2 ^ 31) exts -> (length exts <= 4)%nat ->
  type_is_an_array s (t ++ concat (map bracket exts)) =
    Some (if (0 <? length exts)%nat && negb ((st_mt s =? M_CHAR_ARRAY) && (length exts =? 1)%nat)
          then set_dims (map number exts) s else s, t).
Proof.
  intros Ht Hne Hx Hl. unfold type_is_an_array. destruct (t ++ concat (map bracket exts)) as [|c0 r] eqn:E.
  { apply app_eq_nil in E as [-> _]. done. }
  rewrite <- E. clear c0 r E. rewrite after_plain by done. rewrite extents_read by done. cbn [mbind option_bind].
  unfold collect_dims. rewrite dims_small by (rewrite map_length; cbn; lia). cbn [mbind option_bind app].
  rewrite map_length. rewrite before_plain by done.
  replace (before_bracket (concat (map bracket exts))) with (@nil Z); [by rewrite app_nil_r|].
  by destruct exts.
Qed.

(** A name with stars attached to it is its own normal form. *)
Lemma attached_normal w n : word w -> 42 ∉ w -> w ∉ qualifiers ->
  normalize_type (w ++ replicate n 42) = Some (w ++ replicate n 42).
Proof.
  intros Hw Hs Hq.
  assert (Hnn : Forall (fun c => c <> 0 /\ isspace c = false) (w ++ replicate n 42)).
  { apply Forall_app. split.
    - destruct Hw as (_ & Hw & _). eapply Forall_impl; [exact Hw|]. cbn. intros c [H1 H2]. split; [done|].
      apply not_true_is_false. by rewrite white_isspace.
    - apply Forall_replicate. done. }
  rewrite normalize_ok.
  2:{ eapply Forall_impl; [exact Hnn|]. by intros c [? _]. }
  f_equal. assert (Hne : w ++ replicate n 42 <> []) by (destruct Hw as [Hw _]; by destruct w).
  assert (go (Kin keywords) [] (w ++ replicate n 42) = w ++ replicate n 42) as ->.
  { rewrite go_nodelim.
    2:{ destruct Hw as (_ & Hw & _). apply Forall_forall. intros c Hc. rewrite Forall_forall in Hw. destruct (Hw c Hc) as [H0 H1].
        unfold isdelim. unfold white in H1. assert (c <> 42) by (by intros ->). lia. }
    cbn [app]. assert (Kin keywords w = false) as Hk by (apply bool_decide_eq_false; by rewrite <- quals).
    assert (Hst : forall m, go (Kin keywords) [] (replicate m 42) = replicate m 42).
    { induction m as [|m IH]; [done|]. change (replicate (S m) 42) with (42 :: replicate m 42). cbn [go].
      change (isdelim 42) with true. cbv iota. by rewrite IH. }
    destruct n as [|n]; [cbn; unfold flush; by rewrite Hk, app_nil_r|].
    change (replicate (S n) 42) with (42 :: replicate n 42). cbn [go].
    change (isdelim 42) with true. cbv iota. unfold flush. by rewrite Hk, Hst. }
  rewrite <- (app_nil_r (w ++ replicate n 42)). rewrite lstrip_word by done. rewrite squeeze_word by done. by cbn.
Qed.
