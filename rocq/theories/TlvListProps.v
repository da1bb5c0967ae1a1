(** Property theorems for TLV lists: C08, C09, C10. *)
From Verif Require Import Base BaseLemmas TlvListModel TlvListSpec TlvListProofs.

(** C08.  Any history of operations on any number of lists runs without
    touching dead memory, gives the results and the contents of the same history
    on mathematical sequences, and the live nodes are exactly the fields of the
    sequences and the popped ones. *)
Theorem C08_tlv_list_history : forall k ops, Forall (op_ok k) ops ->
  exists rs m s, run (machine_init k) ops = Ret (rs, m) /\ srun (sinit k) ops = (rs, s) /\
    (forall i, (i < k)%nat -> exists l, rd (m_lists m) i = Ret l /\
        walk (fuel_for (m_heap m)) (m_heap m) (front l) = Ret (nth i (s_lists s) [])) /\
    live (m_heap m) = (length (concat (s_lists s)) + length (s_held s))%nat.
Proof. exact run_history. Qed.
Print Assumptions C08_tlv_list_history.

Definition ex_field (t : Z) : field := mkField t 1 [t] 0.
Definition ex_ops : list op :=
  [OPush 0 (ex_field 80); OPush 1 (ex_field 87); OPush 1 (ex_field 80); OPop 1;
   OAppend 0 1; OFind 0 80; ODup 0; OFree; OPush 1 (ex_field 90); OEmpty 1].
Example C08_ex : Forall (op_ok 2) ex_ops /\
  (let* (rs, m) := run (machine_init 2) ex_ops in Ret (rs, live (m_heap m))) =
  Ret ([RCode 0; RCode 0; RCode 0; RField (Some (ex_field 87)); RCode 0;
        RField (Some (ex_field 80)); RBool true; RCode 0; RCode 0; RBool false], 3%nat).
Proof. split; [repeat constructor; discriminate|vm_compute; reflexivity]. Qed.

(** C08, release: whatever the history, clearing every list and freeing the
    popped fields leaves no live node (and releases none twice, which would be
    [UB]). *)
Theorem C08_tlv_list_released : forall k ops, Forall (op_ok k) ops ->
  exists rs m, run (machine_init k) ops = Ret (rs, m) /\
  exists rs' m', run m (map OClear (seq 0 k) ++ repeat OFree (length (m_held m))) = Ret (rs', m') /\
    live (m_heap m') = 0%nat.
Proof. exact history_released. Qed.
Print Assumptions C08_tlv_list_released.

(** C09.  Find: the first field with the tag; none only if no field has it. *)
Theorem C09_find_first : forall k ops i tag, Forall (op_ok k) ops -> (i < k)%nat ->
  exists rs m l fs r, run (machine_init k) ops = Ret (rs, m) /\
    rd (m_lists m) i = Ret l /\ walk (fuel_for (m_heap m)) (m_heap m) (front l) = Ret fs /\
    step m (OFind i tag) = Ret (RField r, m) /\
    match r with
    | Some f => exists p, nth_error fs p = Some f /\ f_tag f = tag /\
         forall q g, (q < p)%nat -> nth_error fs q = Some g -> f_tag g <> tag
    | None => forall f, In f fs -> f_tag f <> tag
    end.
Proof. exact history_find. Qed.
Print Assumptions C09_find_first.

(** C09.  Duplicate check: two different positions hold the same tag. *)
Theorem C09_duplicate_exact : forall k ops i, Forall (op_ok k) ops -> (i < k)%nat ->
  exists rs m l fs b, run (machine_init k) ops = Ret (rs, m) /\
    rd (m_lists m) i = Ret l /\ walk (fuel_for (m_heap m)) (m_heap m) (front l) = Ret fs /\
    step m (ODup i) = Ret (RBool b, m) /\
    (b = true <-> exists p q f g, p <> q /\ nth_error fs p = Some f /\ nth_error fs q = Some g /\
                    f_tag f = f_tag g).
Proof. exact history_dup. Qed.
Print Assumptions C09_duplicate_exact.

Example C09_ex :
  (let* (_, m) := run (machine_init 1) [OPush 0 (ex_field 1); OPush 0 (mkField 2 1 [5] 0);
                                        OPush 0 (mkField 2 1 [6] 0)] in
   let* (r1, _) := step m (OFind 0 2) in
   let* (r2, _) := step m (OFind 0 3) in
   let* (r3, _) := step m (ODup 0) in Ret [r1; r2; r3]) =
  Ret [RField (Some (mkField 2 1 [5] 0)); RField None; RBool true].
Proof. vm_compute; reflexivity. Qed.

(** C10 is false: after one push, appending the list to itself reports success,
    the list object is empty, and the pushed node is still allocated but no longer
    reachable. *)
Theorem C10_self_append_refuted : exists f rs m l h',
  run (machine_init 1) [OPush 0 f] = Ret (rs, m) /\ rd (m_lists m) 0 = Ret l /\
  list_append_self (m_heap m) l = Ret (0, h', mkList None None) /\
  list_is_empty (mkList None None) = true /\ live h' = 1%nat.
Proof.
  exists (mkField 80 2 [1; 2] 0). do 4 eexists.
  split; [reflexivity|]. split; [reflexivity|]. split; [reflexivity|].
  split; [reflexivity|]. vm_compute. reflexivity.
Qed.
Print Assumptions C10_self_append_refuted.

(** The loss happens for every list and every history: the call succeeds, the
    list object is emptied and no node is released. *)
Theorem C10_self_append_always_loses : forall k ops i, Forall (op_ok k) ops -> (i < k)%nat ->
  exists rs m l, run (machine_init k) ops = Ret (rs, m) /\ rd (m_lists m) i = Ret l /\
    exists h', list_append_self (m_heap m) l = Ret (0, h', tlist_init) /\
      live h' = live (m_heap m).
Proof. exact history_append_self. Qed.
Print Assumptions C10_self_append_always_loses.
