(** C86: names of functions (mr_serialize_func, src/mr_stringify.c:284-335). *)
From stdpp Require Import list sets.
From Verif Require Import Base FuncName.
Local Open Scope Z_scope.

(** *** The statements' own vocabulary *)
(** The linker has [name] for function [f]: both directions agree. *)
Definition named (dl : linker) (f : Z) (name : list Z) : Prop := dladdr dl f = Some (Some name, f) /\ dlsym dl name = f.
(** What a call must return. *)
Definition right_name (dl : linker) (f : Z) (r : option (list Z)) : Prop :=
  match r with Some name => named dl f name | None => forall name, ~ named dl f name end.

Lemma resolve_right dl f : right_name dl f (resolve dl f).
Proof.
  unfold resolve, right_name, named. destruct (dladdr dl f) as [[[name|] a]|]; [|intros ? [? _]; congruence..].
  destruct (Z.eqb_spec f a) as [<-|N]; [destruct (Z.eqb_spec (dlsym dl name) f)|]; cbn; [done| |]; intros nm [E1 E2]; congruence.
Qed.
Lemma right_unique dl f r : right_name dl f r -> r = resolve dl f.
Proof.
  pose proof (resolve_right dl f) as H. unfold right_name, named in *. intros H'. destruct r as [n|], (resolve dl f) as [m|]; [|by edestruct H|by edestruct H'|done].
  destruct H as [H _], H' as [H' _]. congruence.
Qed.

(** The cache is right: keys lead to entries with the name of their function. *)
Definition cached (dl : linker) (s : fn_cache) : Prop :=
  forall k, k ∈ cache s -> exists e, ra_fn s !! k = Some e /\ right_name dl (func e) (fname e).

Lemma call_ok caching al ad dl s f : cached dl s -> exists r s', serialize_func caching al ad dl s f = Some (r, s') /\ right_name dl f r /\ cached dl s' /\
  (forall k, k ∈ cache s' -> k ∈ cache s \/ k = length (ra_fn s)) /\ (forall k e, ra_fn s !! k = Some e -> ra_fn s' !! k = Some e).
Proof.
  intros C. unfold serialize_func. destruct (caching && al); [|eexists _, _; split; [done|]; split; [apply resolve_right|]; by eauto].
  destruct (List.find _ _) as [k|] eqn:F.
  - apply List.find_some in F as [Hk Hf]. apply elem_of_list_In in Hk. destruct (C k Hk) as (e & Ee & Re). pose proof (lookup_lt_Some _ _ _ Ee) as L.
    destruct (Nat.eqb_spec k (length (ra_fn s))) as [->|N]; [lia|]. unfold fn_eq in Hf. rewrite lookup_app_l in Hf by done. rewrite Ee in Hf. apply Z.eqb_eq in Hf. subst f.
    unfold rd. rewrite lookup_app_l by done. rewrite Ee. cbn [mbind option_bind]. eexists _, _. split; [done|]. split; [done|]. split; [done|]. by eauto.
  - eexists _, _. split; [done|]. split; [apply resolve_right|]. cbn. split; [|split].
    + intros k Hk. cbn in Hk |- *. assert (k ∈ cache s \/ k = length (ra_fn s)) as [H|H] by (destruct ad; [apply elem_of_app in Hk as [?|?%elem_of_list_singleton]|]; auto).
      * destruct (C k H) as (e & Ee & Re). exists e. split; [|done]. by apply lookup_app_l_Some.
      * subst k. eexists. split; [by apply list_lookup_middle|]. apply resolve_right.
    + intros k Hk. destruct ad; [apply elem_of_app in Hk as [?|?%elem_of_list_singleton]|]; auto.
    + intros k e Ee. by apply lookup_app_l_Some.
Qed.

(** C86: every call returns the right name, with and without the cache, whatever allocations fail. *)
Theorem C86_names : forall dl calls,
  exists rs s, serialize_calls (FC [] []) (map (fun '(caching, al, ad, f) => (caching, al, ad, dl, f)) calls) = Some (rs, s) /\
    Forall2 (fun '(caching, al, ad, f) r => right_name dl f r) calls rs.
Proof.
  intros dl calls. assert (C : cached dl (FC [] [])) by (by intros k ?%elem_of_nil). revert C. generalize (FC [] []).
  induction calls as [|[[[caching al] ad] f] calls IH]; intros s C; cbn [map serialize_calls].
  - eexists _, _. by split.
  - destruct (call_ok caching al ad dl s f C) as (r & s1 & -> & Hr & C1 & _). cbn [mbind option_bind].
    destruct (IH s1 C1) as (rs & s2 & -> & H). eexists _, _. split; [done|]. by constructor.
Qed.
Print Assumptions C86_names.

(** With successful allocations the cache keeps one entry per function. *)
Theorem C86_one_entry : forall dl fs,
  exists rs s, serialize_calls (FC [] []) (map (fun f => (true, true, true, dl, f)) fs) = Some (rs, s) /\
    NoDup (map func (ra_fn s)) /\ (forall f, f ∈ map func (ra_fn s) <-> f ∈ fs).
Proof.
  intros dl fs.
  assert (G : forall fs s, cached dl s -> cache s = seq 0 (length (ra_fn s)) -> NoDup (map func (ra_fn s)) ->
    exists rs s', serialize_calls s (map (fun f => (true, true, true, dl, f)) fs) = Some (rs, s') /\
      NoDup (map func (ra_fn s')) /\ (forall f, f ∈ map func (ra_fn s') <-> f ∈ map func (ra_fn s) \/ f ∈ fs)).
  { clear fs. induction fs as [|f fs IH]; intros s C Hs N; cbn [map serialize_calls].
    - eexists _, _. split; [done|]. split; [done|]. intros f. rewrite elem_of_nil. tauto.
    - destruct (call_ok true true true dl s f C) as (r & s1 & E & Hr & C1 & _). rewrite E. cbn [mbind option_bind].
      assert (K : cache s1 = seq 0 (length (ra_fn s1)) /\ NoDup (map func (ra_fn s1)) /\ forall g, g ∈ map func (ra_fn s1) <-> g ∈ map func (ra_fn s) \/ g = f).
      { unfold serialize_func in E. cbn [andb] in E. destruct (List.find _ _) as [k|] eqn:F.
        - apply List.find_some in F as [Hk Hf]. rewrite Hs in Hk. apply in_seq in Hk. destruct (Nat.eqb_spec k (length (ra_fn s))) as [->|Nk]; [lia|].
          unfold fn_eq in Hf. rewrite lookup_app_l in Hf by lia. destruct (ra_fn s !! k) as [e|] eqn:Ee; [|done]. apply Z.eqb_eq in Hf.
          unfold rd in E. rewrite lookup_app_l, Ee in E by lia. cbn in E. injection E as <- <-. cbn. split; [done|]. split; [done|].
          intros g. split; [tauto|]. intros [?| ->]; [done|]. subst f. apply elem_of_list_In, in_map, elem_of_list_In, elem_of_list_lookup. eauto.
        - injection E as <- <-. cbn. rewrite app_length, Hs, seq_app. split; [done|].
          assert (Nf : f ∉ map func (ra_fn s)).
          { intros Hf. apply elem_of_list_In, in_map_iff in Hf as (e & Ef & He). apply elem_of_list_In, elem_of_list_lookup in He as [k Ek].
            pose proof (lookup_lt_Some _ _ _ Ek). assert (In k (cache s)) as Hin by (rewrite Hs; apply in_seq; lia).
            pose proof (List.find_none _ _ F k Hin) as Hn. unfold fn_eq in Hn. rewrite lookup_app_l, Ek in Hn by lia. apply Z.eqb_neq in Hn. done. }
          rewrite map_app. cbn. split.
          + apply NoDup_app. split; [done|]. split; [|apply NoDup_singleton]. intros g Hg ->%elem_of_list_singleton. done.
          + intros g. by rewrite elem_of_app, elem_of_list_singleton. }
      destruct K as (K1 & K2 & K3). destruct (IH s1 C1 K1 K2) as (rs & s2 & -> & N2 & M2). eexists _, _. split; [done|]. split; [done|].
      intros g. rewrite M2, K3, elem_of_cons. tauto. }
  destruct (G fs (FC [] [])) as (rs & s & E & N & M); [by intros k ?%elem_of_nil|done|constructor|]. exists rs, s. split; [done|]. split; [done|].
  intros f. rewrite M. cbn. rewrite elem_of_nil. tauto.
Qed.
Print Assumptions C86_one_entry.

(** A linker with two functions, one of them without reverse resolution. *)
Definition case_dl : linker := Linker (fun f => if f =? 100 then Some (Some [102], 100) else if f =? 200 then Some (Some [103], 200) else None) (fun n => if bool_decide (n = [102]) then 100 else 0).
Example C86_case :
  named case_dl 100 [102] /\ (forall name, ~ named case_dl 200 name) /\
  serialize_calls (FC [] []) (map (fun '(caching, al, ad, f) => (caching, al, ad, case_dl, f))
    [(true, true, true, 100); (true, true, false, 200); (true, true, true, 100); (true, true, true, 200); (false, true, true, 100); (true, false, true, 100)])
  = Some ([Some [102]; None; Some [102]; None; Some [102]; Some [102]], FC [Fn 100 (Some [102]); Fn 200 None; Fn 200 None] [0; 2]%nat).
Proof.
  split; [done|]. split; [|reflexivity]. intros name [E1 E2]. injection E1 as <-. discriminate E2.
Qed.

(** The cache keeps the name after the linker has lost the function, e.g. after dlclose; without it the name
    is not found. *)
Theorem C86_unloaded_refuted : exists dl dl' f name s,
  serialize_calls (FC [] []) [(true, true, true, dl, f); (true, true, true, dl', f); (false, true, true, dl', f)] = Some ([Some name; Some name; None], s) /\
  named dl f name /\ forall n, ~ named dl' f n.
Proof.
  exists case_dl, (Linker (fun _ => None) (fun _ => 0)), 100, [102]. eexists. split; [reflexivity|]. split; [done|]. intros n [? _]. done.
Qed.
Print Assumptions C86_unloaded_refuted.
