(** Theorems about mr_save (src/mr_save.c:1553-1612). *)
From stdpp Require Import sets.
From Verif Require Import Base Ptrs ChildrenProof DfsProof TreeFacts Save SaveForest SaveSpec SaveInv SaveDone.
Local Open Scope Z_scope.

(** * An example: a cyclic list with shared texts *)
Definition assoc (l : list (Z * Z)) (a : Z) : option Z := snd <$> head (filter (fun p => fst p = a) l).
Definition int_f (name : nat) (off : Z) : fd := FD 10 0 T_VOID 4 None 0 0 off name false false false None.
Definition str_f (name : nat) (off : Z) : fd := FD T_STRING 0 T_VOID 8 None 0 0 off name false false false None.
Definition void_f (name : nat) (off : Z) : fd := FD T_POINTER T_VOID T_VOID 8 None 0 0 off name false false false None.
Definition ptr_f (name k : nat) (off : Z) (szf : option szref) : fd := FD T_POINTER T_STRUCT T_STRUCT 8 (Some k) 0 0 off name false false false szf.
Definition sub_f (name k : nat) (size off : Z) : fd := FD T_STRUCT 0 T_STRUCT size (Some k) 0 0 off name false false false None.
Definition ptr_fd_of (k : nat) (size : Z) : fd := FD T_STRUCT 0 T_STRUCT size (Some k) 0 0 0 0 true false false None.
(** What the MR_SAVE macros pass: a descriptor that does not outlive the call. *)
Definition root_of (k : nat) (size : Z) : fd := FD T_STRUCT 0 T_STRUCT size (Some k) 0 0 0 0 true true false None.

(** struct node { int value; char * name; struct node * next; void * any; int a[3]; int used; }
    where [used] tells how many bytes of [a] are in use; struct { node * head; char * title; }. *)
Definition ex_node : td := TD 48
  [int_f 1 0; str_f 2 8; ptr_f 3 0 16 None; void_f 4 24;
   FD T_ARRAY 10 T_VOID 12 None 3 1 32 5 false false false (Some (ByOffset 44)); int_f 6 44] (ptr_fd_of 0 48) 0.
Definition ex_top : td := TD 16 [ptr_f 7 0 0 None; str_f 8 8] (ptr_fd_of 1 16) 0.
(** The list at 1000 and 2000 is cyclic; both names and the title are the text at
    3000; [any] of the first node leads to the title's text, of the second to the
    array of the first. *)
Definition ex_world : world := World [ex_node; ex_top]
  (assoc [(500, 1000); (508, 3000); (1008, 3000); (1016, 2000); (1024, 3000); (2008, 4000); (2016, 1000); (2024, 1032)])
  (fun a _ => Some (assoc [(1044, 8); (2044, 0)] a)) (fun _ _ => None).

Ltac fd_ok_tac := repeat match goal with
  | |- _ /\ _ => split
  | |- _ -> False => intros ?; done
  | |- _ -> _ => intros ?; try done
  | |- exists u, _ => eexists; split; [vm_compute; reflexivity|vm_compute; done]
  | |- fd_ok _ _ => unfold fd_ok, leaf_ok, target_type, ptr_fd_of, root_of; cbn [f_type f_aux f_size f_np f_base f_tdp f_dim0 f_dims f_szf f_opaque int_f str_f void_f ptr_f sub_f]
  | |- if ?b then _ else _ => let v := eval vm_compute in b in change b with v; cbv iota
  | |- Forall _ (_ :: _) => apply Forall_cons; split
  | |- Forall _ [] => apply Forall_nil_2
  | |- target_type _ => unfold target_type
  | |- _ => vm_compute; done
  end.

Ltac facts_tac := repeat match goal with
  | |- _ /\ _ => split; [first [vm_compute; reflexivity|vm_compute; done]|]
  | |- _ => first [vm_compute; reflexivity|vm_compute; done]
  end.

Lemma ex_wf : wf_world ex_world /\ wf_root ex_world (root_of 1 16).
Proof.
  split.
  - intros [|[|k]] t E; cbn in E; [| |done]; injection E as <-; cbn [t_size t_fields t_ptr_fd ex_node ex_top]; fd_ok_tac.
  - split; [fd_ok_tac|intros _; by exists 1%nat, ex_top].
Qed.
Definition result (r : option (option sst)) : sst := match r with Some (Some st) => st | _ => save_init end.
Lemma runs r : (match r with Some (Some _) => true | _ => false end) = true -> r = Some (Some (result r)).
Proof. by destruct r as [[st|]|]. Qed.
Definition ex_tree : tree :=
  T 1 [T 2 [T 5 [T 6 []; T 7 []; T 8 [T 14 [T 15 []; T 16 []; T 18 []; T 19 []; T 20 []; T 21 []]]; T 9 []; T 10 [T 11 []; T 12 []]; T 13 []]]; T 3 []].

(** * C59 *)
(** After a successful mr_save the table is one tree below node 1: no node is
    met twice, nodes are numbered from 1 in the order of a traversal, and every
    node is in the tree except the characters of strings, whose string is. *)
Theorem C59_save_is_a_tree : forall W fuel depth data f st, wf_world W -> wf_root W f ->
  mr_save W fuel depth data f = Some (Some st) ->
  exists t, root t = 1%nat /\ tree_at (lns st) 0 0 t /\ NoDup (nodes t) /\ length (s_info st) = length (lns st) /\
    (forall k j n, nodes t !! k = Some j -> lns st !! j = Some n -> pub_idx n = S k) /\
    (forall i n, i <> 0%nat -> lns st !! i = Some n -> i ∈ nodes t \/
      parent n ∈ nodes t /\ exists q, s_info st !! parent n = Some q /\ i_type q = T_STRING).
Proof.
  intros W fuel depth data f st HW Hf H. destruct (saved W HW fuel depth data f st Hf H) as (ks & A & B & C & D & E & _). exists (T 1 ks). auto 10.
Qed.
Print Assumptions C59_save_is_a_tree.

Example C59_save_is_a_tree_example : exists st, wf_world ex_world /\ wf_root ex_world (root_of 1 16) /\
  mr_save ex_world 100 10 500 (root_of 1 16) = Some (Some st) /\ tree_at (lns st) 0 0 ex_tree /\ length (lns st) = 22%nat.
Proof.
  exists (result (mr_save ex_world 100 10 500 (root_of 1 16))). split; [apply ex_wf|]. split; [apply ex_wf|]. split; [apply runs; vm_compute; reflexivity|].
  split; [|vm_compute; reflexivity]. vm_compute. repeat (eexists || split); done.
Qed.

(** * C60 *)
(** The tree shows the data that is reachable: fields of structures, elements in
    use, the member of a union in use, and behind every pointer either its content
    or a numbered node with the address and the type the pointer leads to. *)
Theorem C60_save_describes : forall W fuel depth data f st t, wf_world W -> wf_root W f ->
  mr_save W fuel depth data f = Some (Some st) -> root t = 1%nat -> tree_at (lns st) 0 0 t ->
  describes W st None (root_fd f) data t.
Proof.
  intros W fuel depth data f st t HW Hf H Rt At. destruct (saved W HW fuel depth data f st Hf H) as (ks & A & _ & _ & _ & _ & G & _).
  by rewrite (tree_unique _ _ _ _ _ _ _ At A Rt).
Qed.
Print Assumptions C60_save_describes.

(** In the example, the list ends in a reference to its first node, and the void
    pointers lead to the title and into the array. *)
Example C60_save_describes_example : exists st, mr_save ex_world 100 10 500 (root_of 1 16) = Some (Some st) /\
  describes ex_world st None (root_fd (root_of 1 16)) 500 ex_tree /\
  (first_child <$> lns st !! 18%nat) = Some 5%nat /\ (i_data <$> s_info st !! 5%nat) = Some 1000 /\
  (first_child <$> lns st !! 9%nat) = Some 3%nat /\ (i_cref <$> s_info st !! 9%nat) = Some true /\
  (first_child <$> lns st !! 19%nat) = Some 11%nat /\ (i_data <$> s_info st !! 11%nat) = Some 1032.
Proof.
  destruct C59_save_is_a_tree_example as (st & HW & Hf & H & At & _). exists st. split; [done|].
  split; [by apply (C60_save_describes ex_world 100 10 500 (root_of 1 16) st ex_tree)|].
  assert (st = result (mr_save ex_world 100 10 500 (root_of 1 16))) as -> by (by rewrite H). facts_tac.
Qed.

(** * C61 *)
(** What several pointers lead to is saved below one of them: two contents of
    pointers never stand for the same value.  Pointers, arrays and bit fields are
    left out, see below. *)
Theorem C61_pointed_to_once : forall W fuel depth data f st, wf_world W -> wf_root W f ->
  mr_save W fuel depth data f = Some (Some st) ->
  forall c d xc xd nc nd xp xq, c <> d -> s_info st !! c = Some xc -> s_info st !! d = Some xd ->
    lns st !! c = Some nc -> lns st !! d = Some nd -> parent nc <> 0%nat -> parent nd <> 0%nat ->
    s_info st !! parent nc = Some xp -> s_info st !! parent nd = Some xq -> i_type xp = T_POINTER -> i_type xq = T_POINTER ->
    ~ (i_data xc = i_data xd /\ i_type xc = i_type xd /\
       i_type xc <> T_ARRAY /\ i_type xc <> T_POINTER /\ i_type xc <> T_BITFIELD /\
       (i_type xc = T_STRUCT \/ i_type xc = T_ENUM \/ union_type (i_type xc) = true ->
        forall g h, i_fdp xc = Some g -> i_fdp xd = Some h -> f_tdp g = f_tdp h)).
Proof.
  intros W fuel depth data f st HW Hf H c d xc xd nc nd xp xq Ncd Ec Ed Enc End Pc Pd Ep Eq Tp Tq (V1 & V2 & V3 & V4 & V5 & V6).
  destruct (saved W HW fuel depth data f st Hf H) as (ks & _ & _ & _ & _ & _ & _ & G & _). apply (G c d xc xd nc nd xp xq Ncd Ec Ed Enc End Pc Pd Ep Eq Tp Tq). split; [done|]. split; [done|]. split.
  - unfold matchable. apply Z.eqb_neq in V3, V4, V5. by rewrite V3, V4, V5.
  - unfold compound. intros Hc. apply V6. apply orb_prop in Hc as [Hc|Hc]; [|by right; right]. apply orb_prop in Hc as [Hc|Hc]; apply Z.eqb_eq in Hc; auto.
Qed.
Print Assumptions C61_pointed_to_once.

(** Of the strings with the same characters in memory all but one are references. *)
Theorem C61_strings_once : forall W fuel depth data f st, wf_world W -> wf_root W f ->
  mr_save W fuel depth data f = Some (Some st) ->
  forall i j x y n m a, i <> j -> i <> 0%nat -> j <> 0%nat -> s_info st !! i = Some x -> s_info st !! j = Some y ->
    lns st !! i = Some n -> lns st !! j = Some m -> i_type x = T_STRING -> i_type y = T_STRING ->
    w_ptr W (i_data x) = Some a -> w_ptr W (i_data y) = Some a -> a <> 0 -> is_ref n = true \/ is_ref m = true.
Proof.
  intros W fuel depth data f st HW Hf H i j x y n m a Nij I0 J0 Ex Ey En Em Tx Ty Wx Wy Na.
  destruct (saved W HW fuel depth data f st Hf H) as (ks & _ & _ & _ & _ & _ & _ & _ & G).
  destruct (is_ref n) eqn:Rn; [by left|]. destruct (is_ref m) eqn:Rm; [by right|]. exfalso. exact (G i j x y n m a Nij I0 J0 Ex Ey En Em Tx Ty Rn Rm Wx Wy Na).
Qed.
Print Assumptions C61_strings_once.

(** In the example nodes 5 and 14 are contents of pointers of the same type, and
    the title and the name of the first node are the same text. *)
Example C61_once_example : exists st x5 x14 n5 n14 x3 x7 n3 n7, mr_save ex_world 100 10 500 (root_of 1 16) = Some (Some st) /\
  s_info st !! 5%nat = Some x5 /\ s_info st !! 14%nat = Some x14 /\ lns st !! 5%nat = Some n5 /\ lns st !! 14%nat = Some n14 /\
  parent n5 = 2%nat /\ parent n14 = 8%nat /\ i_type x5 = T_STRUCT /\ i_type x14 = T_STRUCT /\ i_data x5 <> i_data x14 /\
  s_info st !! 3%nat = Some x3 /\ s_info st !! 7%nat = Some x7 /\ lns st !! 3%nat = Some n3 /\ lns st !! 7%nat = Some n7 /\
  i_type x3 = T_STRING /\ i_type x7 = T_STRING /\ w_ptr ex_world (i_data x3) = Some 3000 /\ w_ptr ex_world (i_data x7) = Some 3000 /\
  is_ref n3 = false /\ is_ref n7 = true.
Proof.
  exists (result (mr_save ex_world 100 10 500 (root_of 1 16))). do 8 eexists. split; [apply runs; vm_compute; reflexivity|].
  facts_tac.
Qed.

(** * What does not hold in general *)
(** Pointers with a size field: a node can end up below itself, away from the
    tree (src/mr_save.c:717-722: nodes are moved without a test like the one in
    line 818).  Here
    struct s { int size; struct s * q; } at 100 has [q] lead to [100] with room for
    two; what the root's pointer leads to is lost. *)
Definition cyc_s : td := TD 16 [int_f 1 0; ptr_f 2 0 8 (Some (ByOffset 0))] (ptr_fd_of 0 16) 0.
Definition cyc_top : td := TD 8 [ptr_f 3 0 0 None] (ptr_fd_of 1 8) 0.
Definition cyc_world : world := World [cyc_s; cyc_top] (assoc [(500, 100); (108, 100); (124, 0)])
  (fun a _ => Some (assoc [(100, 32); (116, 0)] a)) (fun _ _ => None).
Theorem C59_sized_pointer_cycle_refuted : exists st x n m, mr_save cyc_world 100 10 500 (root_of 1 8) = Some (Some st) /\
  tree_at (lns st) 0 0 (T 1 [T 2 []]) /\
  s_info st !! 3%nat = Some x /\ i_data x = 100 /\ i_type x = T_STRUCT /\ w_ptr cyc_world 500 = Some (i_data x) /\
  lns st !! 3%nat = Some n /\ pub_idx n = 0%nat /\ parent n = 5%nat /\ lns st !! 5%nat = Some m /\ parent m = 3%nat.
Proof.
  exists (result (mr_save cyc_world 100 10 500 (root_of 1 8))). do 3 eexists. split; [apply runs; vm_compute; reflexivity|].
  split; [vm_compute; repeat (eexists || split); done|]. facts_tac.
Qed.
Print Assumptions C59_sized_pointer_cycle_refuted.

(** Appending an element to a pointer's content cuts off the elements after the
    one above the node added last (src/mr_save.c:732-736, 678-685 with
    src/metaresc.c:624-643). *)
Definition cut_y : td := TD 8 [int_f 1 0; int_f 2 4] (ptr_fd_of 1 8) 0.
Definition cut_s : td := TD 24 [int_f 1 0; ptr_f 2 1 8 None; ptr_f 3 0 16 (Some (ByOffset 0))] (ptr_fd_of 0 24) 0.
Definition cut_top : td := TD 16 [int_f 1 0; ptr_f 2 0 8 (Some (ByOffset 0))] (ptr_fd_of 2 16) 0.
Definition cut_world : world := World [cut_s; cut_y; cut_top]
  (assoc [(508, 1000); (1008, 3000); (1016, 1024); (1032, 0); (1040, 0); (1056, 0); (1064, 0); (1080, 0); (1088, 0)])
  (fun a _ => Some (assoc [(500, 72); (1000, 72); (1024, 0); (1048, 0); (1072, 0)] a)) (fun _ _ => None).
Theorem C59_sized_pointer_cut_refuted : exists st x n, mr_save cut_world 100 10 500 (root_of 2 16) = Some (Some st) /\
  tree_at (lns st) 0 0 (T 1 [T 2 []; T 3 [T 4 [T 5 []; T 6 [T 16 [T 17 []; T 18 []]]; T 7 []]; T 19 [T 20 []; T 21 []; T 22 []]]]) /\
  s_info st !! 8%nat = Some x /\ i_data x = 1024 /\ lns st !! 8%nat = Some n /\ parent n = 3%nat /\ referenced n = true /\ pub_idx n = 0%nat.
Proof.
  exists (result (mr_save cut_world 100 10 500 (root_of 2 16))). do 2 eexists. split; [apply runs; vm_compute; reflexivity|].
  split; [vm_compute; repeat (eexists || split); done|]. facts_tac.
Qed.
Print Assumptions C59_sized_pointer_cut_refuted.

(** An object whose container is reached later is saved twice: struct a { struct
    b * container; } inside struct b { int id; struct a link; }. *)
Definition box_a : td := TD 8 [ptr_f 1 1 0 None] (ptr_fd_of 0 8) 0.
Definition box_b : td := TD 16 [int_f 1 0; sub_f 2 0 8 8] (ptr_fd_of 1 16) 0.
Definition box_top : td := TD 8 [ptr_f 3 0 0 None] (ptr_fd_of 2 8) 0.
Definition box_world : world := World [box_a; box_b; box_top] (assoc [(500, 1008); (1008, 1000)]) (fun _ _ => Some None) (fun _ _ => None).
Theorem C61_container_refuted : wf_world box_world /\ wf_root box_world (root_of 2 8) /\
  exists st x y, mr_save box_world 100 10 500 (root_of 2 8) = Some (Some st) /\
  tree_at (lns st) 0 0 (T 1 [T 2 [T 3 [T 4 [T 5 [T 6 []; T 7 [T 8 []]]]]]]) /\
  s_info st !! 3%nat = Some x /\ s_info st !! 7%nat = Some y /\ i_data x = i_data y /\ i_type x = T_STRUCT /\ i_type y = T_STRUCT /\
  (i_fdp x ≫= f_tdp) = Some 0%nat /\ (i_fdp y ≫= f_tdp) = Some 0%nat.
Proof.
  split; [intros [|[|[|k]]] t E; cbn in E; [| | |done]; injection E as <-; cbn [t_size t_fields t_ptr_fd box_a box_b box_top]; fd_ok_tac|].
  split; [split; [fd_ok_tac|intros _; by exists 2%nat, box_top]|].
  exists (result (mr_save box_world 100 10 500 (root_of 2 8))). do 2 eexists. split; [apply runs; vm_compute; reflexivity|].
  split; [vm_compute; repeat (eexists || split); done|]. facts_tac.
Qed.
Print Assumptions C61_container_refuted.

(** Pointers are never found again (src/mr_save.c:493-496): what two pointers to
    a pointer share is saved twice. *)
Definition pp_f (name : nat) (off : Z) : fd := FD T_POINTER T_POINTER 10 8 (Some 0%nat) 0 0 off name false false false None.
Definition pp_int : td := TD 4 [] (FD T_POINTER 10 10 8 (Some 0%nat) 0 0 0 0 true false false None) 0.
Definition pp_top : td := TD 16 [pp_f 1 0; pp_f 2 8] (ptr_fd_of 1 16) 0.
Definition pp_world : world := World [pp_int; pp_top] (assoc [(500, 1008); (508, 1008); (1008, 1000)]) (fun _ _ => Some None) (fun _ _ => None).
Theorem C61_pointer_to_pointer_refuted : wf_world pp_world /\ wf_root pp_world (root_of 1 16) /\
  exists st x y, mr_save pp_world 100 10 500 (root_of 1 16) = Some (Some st) /\
  tree_at (lns st) 0 0 (T 1 [T 2 [T 4 [T 6 []]]; T 3 [T 5 []]]) /\
  s_info st !! 4%nat = Some x /\ s_info st !! 5%nat = Some y /\ i_data x = i_data y /\ i_type x = T_POINTER /\ i_type y = T_POINTER.
Proof.
  split; [intros [|[|k]] t E; cbn in E; [| |done]; injection E as <-; cbn [t_size t_fields t_ptr_fd pp_int pp_top]; fd_ok_tac|].
  split; [split; [fd_ok_tac|intros _; by exists 1%nat, pp_top]|].
  exists (result (mr_save pp_world 100 10 500 (root_of 1 16))). do 2 eexists. split; [apply runs; vm_compute; reflexivity|].
  split; [vm_compute; repeat (eexists || split); done|]. facts_tac.
Qed.
Print Assumptions C61_pointer_to_pointer_refuted.

(** A structure with an array of empty structures is not saved at all
    (src/mr_save.c:1183-1184). *)
Definition void_e : td := TD 0 [] (ptr_fd_of 0 0) 0.
Definition void_top : td := TD 4 [int_f 1 0; FD T_ARRAY T_STRUCT T_STRUCT 0 (Some 0%nat) 3 1 4 2 false false false None] (ptr_fd_of 1 4) 0.
Definition void_world : world := World [void_e; void_top] (assoc []) (fun _ _ => Some None) (fun _ _ => None).
Theorem C60_empty_elements_refuted : wf_world void_world /\ wf_root void_world (root_of 1 4) /\
  mr_save void_world 100 10 500 (root_of 1 4) = Some None.
Proof.
  split; [intros [|[|k]] t E; cbn in E; [| |done]; injection E as <-; cbn [t_size t_fields t_ptr_fd void_e void_top]; fd_ok_tac|].
  split; [split; [fd_ok_tac|intros _; by exists 1%nat, void_top]|]. vm_compute. reflexivity.
Qed.
Print Assumptions C60_empty_elements_refuted.
