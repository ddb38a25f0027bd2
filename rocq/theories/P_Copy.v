(** Theorem about data that is saved to JSON and loaded again (src/mr_save.c,
    src/json_save.c, src/json_load.y, src/mr_load.c together). *)
From Coq Require Import String Ascii.
From stdpp Require Import list sets.
From Verif Require Import Base NumStr Ptrs DfsProof PruneProof TreeFacts Save SaveSpec Parse Json JsonSpec Copy CopySpec CopyTree CopyPrint CopyLoad JsonCopyTop P_Save P_Json.
From Verif Require Load LoadSpec LoadFits P_LoadFits.
Local Open Scope Z_scope.

(** * C77 *)
(** Saving data to JSON and loading the text gives a copy: there is a relation
    between values of the data and places in the loaded memory that starts at the
    two roots, such that every related value was copied to its place, which is
    inside an allocated block. Members of structures and elements in use are at
    their offsets, pointers and strings that were NULL are NULL, other pointers
    lead to a place related to what they led to, and values are read from what was
    printed for them. Strings that were one text are one text again, unless an array
    of characters of the copy is that text. *)
Theorem C77_copy_through_json : forall W names known cstr shown isprint wrapv buf leaf alloc fuel depth data f st size,
  length buf = print_buffer -> isprint 0 = false ->
  wf_world W -> wf_root W f -> plain_world W names known -> plain_fd W f -> loadable W names f size ->
  printable wrapv cstr shown -> readable shown leaf -> (forall b, alloc b = true) ->
  mr_save W fuel depth data f = Some (Some st) -> Z.of_nat (length (lns st)) < 2 ^ 32 - 1 ->
  exists text,
    (exists fuel, forall fuel', (fuel <= fuel')%nat ->
       json_save isprint wrapv buf (map (print_info W names cstr shown) (s_info st)) fuel' (lns st) = Some text) /\
    (exists s, json_load known text s) /\
    forall s, json_load known text s -> exists t,
      root t = 1%nat /\ tree_at (ra (l_ptrs s)) 0 0 t /\
      let nd := load_node (ra (l_ptrs s)) (l_info s) t in
      exists m, Load.load_top (load_env W names) leaf alloc nd (0%nat, 0) (load_fd names f) (Load.start size (Load.subtree nd)) = Some (true, m) /\
      exists R : option (Z * nat) -> Z -> fd -> Load.addr -> Prop,
        R None data (root_fd f) (0%nat, 0) /\
        (forall e a g b, R e a g b -> LoadSpec.inside m b (load_stype g) /\ copied W cstr shown m (l_info s) R e a g b) /\
        forall e a g b e' a' g' b' p, R e a g b -> R e' a' g' b' -> f_type g = T_STRING -> f_type g' = T_STRING ->
          w_ptr W a = Some p -> w_ptr W a' = Some p -> p <> 0 -> (forall e g b, R e p g b -> f_type g <> T_CHAR_ARRAY) ->
          Load.get_ptr m b = Load.get_ptr m b'.
Proof.
  intros W names known cstr shown isprint wrapv buf leaf alloc fuel depth data f st size Hb Hp HW Hf HP Hpf HLd HS Hleaf Halloc H Sz.
  destruct (C59_save_is_a_tree W fuel depth data f st HW Hf H) as (t & Rt & HT & Nd & Li & Num & HQ).
  pose proof (C60_save_describes W fuel depth data f st t HW Hf H Rt HT) as Ds. destruct HLd as (He & Hu & Hst & Hsz).
  assert (fine W names (root_fd f)) as Fr.
  { destruct Hf as [(_ & _ & Hk) _]. pose proof Hpf as (P1 & P2 & _ & _ & _ & _ & P7 & _). split; [exact Hpf|]. split; [exact Hst|].
    change (f_type (root_fd f)) with (f_type f). change (f_aux (root_fd f)) with (f_aux f). change (f_tdp (root_fd f)) with (f_tdp f). change (f_dims (root_fd f)) with (f_dims f). change (f_dim0 (root_fd f)) with (f_dim0 f).
    destruct (Z.eqb_spec (f_type f) T_ARRAY) as [Ea|Na].
    - destruct Hk as (K1 & K2 & K3 & K4). destruct (P7 Ea) as (_ & Eb & _). rewrite Ea. split; [done|]. split; [done|]. split; [|done].
      intros _ E Nz. destruct (K4 Nz) as (_ & _ & K). destruct (K E) as (_ & _ & K' & _). by rewrite <- Eb.
    - destruct Hk as (_ & _ & K). split; [done|]. split; [intros E; destruct (K E) as (_ & _ & ? & ?); done|]. done. }
  destruct (decorate W names known st HW HP He t None (root_fd f) data 0 Ds Fr) as (d0 & <- & Ee & Eg & Ea & Eo & HL).
  assert (Z.of_nat (length (nodes (shape d0))) < 2 ^ 32 - 1) as Sn.
  { enough (length (nodes (shape d0)) <= length (lns st))%nat as X by lia.
    rewrite <- (seq_length (length (lns st)) 0). apply submseteq_length, NoDup_submseteq; [done|]. intros i Hi. apply elem_of_seq.
    destruct (nodes_nonzero _ _ _ HT _ Hi) as (_ & n & En). apply lookup_lt_Some in En. lia. }
  assert (Z.of_nat (length (flat d0)) < 2 ^ 32 - 1) as Sf by (by rewrite flat_nodes, map_length in Sn).
  destruct (C62_json_document_roundtrip known isprint wrapv buf (lns st) (map (print_info W names cstr shown) (s_info st)) (shape d0) Hb Hp HT Rt Nd Num ltac:(lia)) as (text & Sv & _ & Ex & Ld).
  { apply all_printable; try done. by rewrite Eg. }
  exists text. split; [exact Sv|]. split; [exact Ex|]. intros s Hs. destruct (Ld s Hs) as (_ & _ & _ & HT' & HI & HR). clear Ld.
  pose proof (flat_self d0) as Hd0.
  exists (rename (public (lns st)) (shape d0)). split.
  { destruct (index_of W names st d0 HL Num d0 Hd0) as (k & Hk & Ek). destruct d0 as [i e g a o ks]. cbn in Rt, Ek |- *. cbn [flat] in Hk.
    assert (nodes (shape (D i e g a o ks)) !! 0%nat = Some i) as E0 by done. destruct (nodes_nonzero _ _ _ HT i) as (_ & n & En); [by eapply elem_of_list_lookup_2|].
    unfold public. rewrite En. by apply (Num 0%nat i n). }
  split; [exact HT'|]. cbn zeta. change (load_node (ra (l_ptrs s)) (l_info s) (rename (public (lns st)) (shape d0))) with (lnode st (ra (l_ptrs s)) (l_info s) d0).
  destruct (P_LoadFits.C76_load_complete (load_env W names) leaf alloc (Load.subtree (lnode st (ra (l_ptrs s)) (l_info s) d0)) (lnode st (ra (l_ptrs s)) (l_info s) d0) size (load_fd names f) (ty d0) (off d0))
    as (m & place & Run & Pr & HC & _).
  - split; [done|]. split; [done|]. split; [by eapply tree_good|]. done.
  - done.
  - eapply fits_tree; try done. by rewrite Eg.
  - by eapply refs_good.
  - exists m. split; [exact Run|]. exists (R st d0 (ra (l_ptrs s)) (l_info s) place). split.
    + exists d0. by rewrite Pr.
    + split; [intros e a g b HRr; by eapply all_copied|]. intros e a g b e' a' g' b' p R1 R2 T1 T2 W1 W2 Np Nc.
      eapply (strings_shared W names cstr shown st alloc d0 (ra (l_ptrs s)) (l_info s)); try done. by eapply C61_strings_once.
Qed.
Print Assumptions C77_copy_through_json.

(** The cyclic list with shared texts of P_Save.v meets the hypotheses: fields are
    named a, b, c, ..., the text at 3000 is ``hi'', other texts are ``yo'', and the
    number at an address is shown as the address; the loaded memory has 16 bytes. *)
Definition ex_names (i : nat) : list Z := [96 + Z.of_nat (i mod 26)].
Definition ex_cstr (p : Z) : list Z := if p =? 3000 then [104; 105] else [121; 111].
Definition ex_shown (a c : Z) (h : fd) : jkind := if c =? T_CHAR_ARRAY then KStr [] else KInt Enum.I32 a.
Ltac copy_tac := repeat match goal with
  | |- _ /\ _ => split
  | |- Forall _ (_ :: _) => apply Forall_cons; split
  | |- Forall _ [] => apply Forall_nil_2
  | |- _ -> _ => intros ?; try done
  | |- plain_fd _ _ => unfold plain_fd
  | |- Forall unquotable (ex_names _) => unfold ex_names
  | |- unquotable _ => unfold unquotable
  | |- nonempty _ _ _ => eexists; split; [vm_compute; reflexivity|vm_compute; done]
  | |- _ => first [done|vm_compute; done|vm_compute; lia]
  end.
Lemma ex_plain : plain_world ex_world ex_names (fun _ => true) /\ plain_fd ex_world (root_of 1 16).
Proof.
  split.
  - intros [|[|k]] t E; cbn in E; [| |done]; injection E as <-; cbn [t_fields ex_node ex_top].
    + split; [copy_tac|]. split; [|copy_tac]. apply (bool_decide_unpack _). vm_compute. done.
    + split; [copy_tac|]. split; [|copy_tac]. apply (bool_decide_unpack _). vm_compute. done.
  - copy_tac.
Qed.
Lemma ex_loadable : loadable ex_world ex_names (root_of 1 16) 16.
Proof.
  split; [|split; [|split]].
  - intros [|[|k]] d E; cbn in E; [| |done]; injection E as <-; intros f Hf; cbn [Load.t_fields load_td map t_fields ex_node ex_top] in Hf;
      repeat (apply elem_of_cons in Hf as [->|Hf]); try (by apply elem_of_nil in Hf); (split; [vm_compute; done|]; split; [vm_compute; done|]);
      unfold LoadSpec.stype_ok; cbn [Load.f_ty load_fd]; (split; [vm_compute; done|]).
    all: match goal with |- context [Load.s_kind ?t] => let v := eval vm_compute in (Load.s_kind t) in change (Load.s_kind t) with v end; cbv iota beta.
    all: try (exists 4).
    all: unfold LoadSpec.target_ok; repeat match goal with |- _ /\ _ => split end; try (vm_compute; done); try (vm_compute; intros; done).
    all: try (vm_compute; repeat constructor; done).
    all: intros d' E'; vm_compute in E'; injection E' as <-; vm_compute; done.
  - intros [|[|k]] d E; cbn in E; [| |done]; injection E as <-; intros x y f g Hx Hy Hn; cbn [Load.t_fields load_td map t_fields ex_node ex_top] in Hx, Hy.
    + do 6 (destruct x as [|x]; [injection Hx as <-; do 6 (destruct y as [|y]; [injection Hy as <-; first [done|left; vm_compute; done|right; left; vm_compute; done]|]); done|]). done.
    + do 2 (destruct x as [|x]; [injection Hx as <-; do 2 (destruct y as [|y]; [injection Hy as <-; first [done|left; vm_compute; done|right; left; vm_compute; done]|]); done|]). done.
  - split; [vm_compute; done|]. intros d E. vm_compute in E. injection E as <-. vm_compute. done.
  - vm_compute. done.
Qed.
(** The text: both names and the title are shared, the list is cyclic. *)
Definition codes (s : String.string) : list Z := map (fun c => Z.of_N (Ascii.N_of_ascii c)) (String.list_ascii_of_string s).
Example C77_copy_through_json_example : exists st,
  wf_world ex_world /\ wf_root ex_world (root_of 1 16) /\ plain_world ex_world ex_names (fun _ => true) /\ plain_fd ex_world (root_of 1 16) /\
  loadable ex_world ex_names (root_of 1 16) 16 /\ printable true ex_cstr ex_shown /\ readable ex_shown (fun _ _ => (true, true)) /\
  mr_save ex_world 100 10 500 (root_of 1 16) = Some (Some st) /\ Z.of_nat (length (lns st)) < 2 ^ 32 - 1 /\
  json_save ex_isprint true ex_buf (map (print_info ex_world ex_names ex_cstr ex_shown) (s_info st)) 200 (lns st) = Some (codes "{
  ""g"": [
    {
      ""a"": 1000,
      ""b"": -19,
      ""c"": [
        {
          ""a"": 2000,
          ""b"": ""yo"",
          ""c"": 3,
          ""d"": 16,
          ""e"": [
          ],
          ""f"": 2044
        }
      ],
      ""d"": -19,
      ""e"": [
        1032,
        1036
      ],
      ""f"": 1044
    }
  ],
  ""h"": ""hi""
}
"%string).
Proof.
  exists (result (mr_save ex_world 100 10 500 (root_of 1 16))). split; [apply ex_wf|]. split; [apply ex_wf|]. split; [apply ex_plain|]. split; [apply ex_plain|].
  split; [apply ex_loadable|]. split.
  { split; [intros p; unfold ex_cstr; destruct (p =? 3000); repeat constructor; done|]. split; [|by intros a h; exists []].
    intros a c h. unfold ex_shown. destruct (c =? T_CHAR_ARRAY); (split; [|done]); [constructor|]. split; [done|by left]. }
  split; [done|]. split; [apply runs; vm_compute; reflexivity|]. split; [vm_compute; done|]. vm_compute. reflexivity.
Qed.
