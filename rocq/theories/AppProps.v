(** Property theorems for src/emv_app.c: C35 - C37, C63 - C65. *)
From Verif Require Import Base BaseLemmas BerModel BerSpec BerProofs TlvListModel TlvListProofs TlvModel TlvSpec
  Iso8859Spec AppModel AppSpec AppProofs.

(** C35.  An application is supported exactly if one of the configured AIDs equals its
    AID or, with partial matching, is a prefix of it. *)
Theorem C35_supported : forall aid l, wf_field aid -> Forall wf_field l ->
  exists b, app_is_supported aid l = Ret b /\ (b = true <-> exists t, In t l /\ aid_matches aid t).
Proof. exact supported_spec. Qed.
Print Assumptions C35_supported.

Definition f4F (flags : Z) (v : list Z) := mkField 0x4F (Zlen v) v flags.
Example C35_ex :
  app_is_supported (f4F 0 [0xA0;0;0;0;3;0x10;0x10]) [f4F 0 [0xA0;0;0;0;3]; f4F 1 [0xA0;0;0;0;4]; f4F 1 [0xA0;0;0;0;3]] = Ret true /\
  app_is_supported (f4F 0 [0xA0;0;0;0;3;0x10;0x10]) [f4F 0 [0xA0;0;0;0;3]; f4F 1 [0xA0;0;0;0;4]] = Ret false /\
  app_is_supported (f4F 0 [0xA0;0;0;0;3]) [f4F 1 [0xA0;0;0;0;3;0x10]] = Ret false.
Proof. repeat split. Qed.

(** C36.  Sorting permutes the list, orders it by priority, keeps the order of
    applications of the same priority 1 to 15, and touches no other application.
    Applications without priority come last but in reverse order, where a stable
    sort would keep theirs. *)
Theorem C36_sort_partial : forall h l cs fuel, arep h l cs -> (length cs < fuel)%nat ->
  exists h' l' cs', alist_sort_priority fuel h l = Ret (0, h', l') /\ arep h' l' cs' /\
    frame h h' (map fst cs) /\ Permutation cs cs' /\ StronglySorted before cs' /\
    (forall p, p <> 0 -> with_prio p cs' = with_prio p cs) /\ with_prio 0 cs' = rev (with_prio 0 cs).
Proof. exact sort_spec. Qed.
Print Assumptions C36_sort_partial.

Definition xapp (n p : Z) (conf : bool) : emvapp := mkApp (f4F 0 [n]) [] p conf [].
Definition xheap : aheap :=
  [Some (mkAN (xapp 1 0 false) (Some 2%nat)); Some (mkAN (xapp 2 3 true) None); Some (mkAN (xapp 3 0 false) (Some 1%nat)); None].
Definition xlist := mkAL (Some 0%nat) (Some 1%nat).
Definition xcells := [(0%nat, xapp 1 0 false); (2%nat, xapp 3 0 false); (1%nat, xapp 2 3 true)].
Lemma xrep : arep xheap xlist xcells.
Proof.
  split; [|split; [reflexivity|]].
  - repeat (eapply ch_cons; [reflexivity|]). constructor.
  - repeat constructor; cbn; intuition lia.
Qed.
(** Two applications without priority are swapped. *)
Theorem C36_stable_sort_refuted : exists h l cs h' l', arep h l cs /\
  alist_sort_priority (S (length cs)) h l = Ret (0, h', l') /\
  forall cs', arep h' l' cs' -> ~ stable_sort cs cs'.
Proof.
  exists xheap, xlist, xcells.
  destruct (sort_spec xheap xlist xcells 4 xrep ltac:(cbn; lia)) as (h' & l' & cs' & E & R & _ & _ & _ & _ & W).
  exists h', l'. split; [exact xrep|]. split; [exact E|].
  intros cs2 R2 (_ & _ & W2). specialize (W2 0).
  assert (cs2 = cs') by (eapply chain_det; [apply R2|apply R]). subst cs2. rewrite W in W2. discriminate W2.
Qed.
Print Assumptions C36_stable_sort_refuted.
Example C36_ex : exists h' l', alist_sort_priority 4 xheap xlist = Ret (0, h', l') /\
  arep h' l' [(1%nat, xapp 2 3 true); (2%nat, xapp 3 0 false); (0%nat, xapp 1 0 false)].
Proof.
  do 2 eexists. split; [vm_compute; reflexivity|]. split; [|split; [reflexivity|]].
  - repeat (eapply ch_cons; [reflexivity|]). constructor.
  - repeat constructor; cbn; intuition lia.
Qed.

(** C36.  The sort on sequences used by the layers above is what the sort on heap
    nodes does. *)
Theorem C36_sort_refines : forall h l cs fuel, arep h l cs -> (length cs < fuel)%nat ->
  exists h' l' cs', alist_sort_priority fuel h l = Ret (0, h', l') /\ arep h' l' cs' /\
    map snd cs' = sort_priority (map snd cs).
Proof. exact sort_refines. Qed.
Print Assumptions C36_sort_refines.

(** C37.  Removal by index returns the application at the index, detached, and leaves
    exactly the others in order; an index behind the end changes nothing. *)
Theorem C37_remove_index : forall h l cs index fuel, arep h l cs -> (length cs < fuel)%nat ->
  (length cs <= index)%nat /\ alist_remove_index fuel h l index = Ret (None, h, l) \/
  exists p1 c p2 h' l', cs = p1 ++ c :: p2 /\ length p1 = index /\
    alist_remove_index fuel h l index = Ret (Some (fst c), h', l') /\
    arep h' l' (p1 ++ p2) /\ loose h' (fst c) (snd c) /\ frame h h' (map fst cs) /\ length h' = length h.
Proof. exact remove_spec. Qed.
Print Assumptions C37_remove_index.
Example C37_ex : exists h' l', alist_remove_index 4 xheap xlist 2 = Ret (Some 1%nat, h', l') /\
  arep h' l' [(0%nat, xapp 1 0 false); (2%nat, xapp 3 0 false)] /\ al_back l' = Some 2%nat.
Proof.
  do 2 eexists. split; [vm_compute; reflexivity|]. split; [|reflexivity]. split; [|split; [reflexivity|]].
  - repeat (eapply ch_cons; [reflexivity|]). constructor.
  - repeat constructor; cbn; intuition lia.
Qed.

(** C63.  An application created from a directory entry of a PSE carries the fields of
    the entry; its identifier, display name (a terminated string inside the buffer)
    and priority are as the fields say.  Creation fails only if the entry is not
    valid or has no identifier. *)
Theorem C63_create_from_pse : forall junk pse entry,
  length junk = 17%nat -> Forall wf_field pse -> bytes entry -> small entry ->
  (exists a ts, app_create_from_pse junk pse entry = Ret (Some a) /\ forest false entry ts /\
     a_tlvs a = flat_map leaves ts /\ good_app pse 0x4F a) \/
  (app_create_from_pse junk pse entry = Ret None /\
   forall ts, forest true entry ts -> absent 0x4F (flat_map leaves ts) \/
     exists aid, first_with 0x4F (flat_map leaves ts) aid /\ f_val aid = []).
Proof. exact create_pse. Qed.
Print Assumptions C63_create_from_pse.

(** C63.  The same for file control information (not empty, see C64): it must be
    exactly one object 6F. *)
Theorem C63_create_from_fci : forall junk fci, length junk = 17%nat -> bytes fci -> small fci -> fci <> [] ->
  (exists a t ts, app_create_from_fci junk fci = Ret (Some a) /\ piece fci t /\ b_tag t = 0x6F /\
     forest false (b_val t) ts /\ a_tlvs a = flat_map leaves ts /\ good_app (a_tlvs a) 0x84 a) \/
  (app_create_from_fci junk fci = Ret None /\
   forall flags v ts, encodes fci 0x6F flags v -> forest true v ts -> absent 0x84 (flat_map leaves ts) \/
     exists aid, first_with 0x84 (flat_map leaves ts) aid /\ f_val aid = []).
Proof. exact create_fci. Qed.
Print Assumptions C63_create_from_fci.

(** Preferred name "\xE9t" with code table 1; label "A-B" with priority 82; only an AID. *)
Example C63_ex :
  (let* a := app_create_from_fci (repeat 7 17)
     [0x6F;0x12;0x84;2;0xA0;1;0xA5;0x0C;0x50;1;0x41;0x9F;0x11;1;1;0x9F;0x12;2;0xE9;0x74] in
   Ret (option_map (fun a => firstn 4 (a_name a)) a)) = Ret (Some [0xC3;0xA9;0x74;0]) /\
  (let* a := app_create_from_pse (repeat 7 17) [mkField 0x9F11 1 [2] 0]
     [0x4F;2;0xA0;1;0x50;3;0x41;0x2D;0x42;0x87;1;0x82;0x9F;0x12;1;0x43] in
   Ret (option_map (fun a => (firstn 3 (a_name a), a_prio a, a_conf a)) a)) = Ret (Some ([0x41;0x42;0], 2, true)) /\
  (let* a := app_create_from_pse (repeat 7 17) [] [0x4F;2;0xA0;1] in
   Ret (option_map (fun a => (firstn 5 (a_name a), a_prio a, a_conf a)) a)) = Ret (Some ([0x41;0x30;0x30;0x31;0], 0, false)).
Proof. repeat split; vm_compute; reflexivity. Qed.

(** C64.  Creating an application from empty file control information uses an
    uninitialised structure. *)
Theorem C64_empty_fci_refuted : exists junk fci, length junk = 17%nat /\ bytes fci /\ small fci /\
  app_create_from_fci junk fci = UB.
Proof. exists (repeat 0 17), []. repeat split; try constructor. Qed.
Print Assumptions C64_empty_fci_refuted.
(** C64.  This is the only such input. *)
Theorem C64_nonempty_fci_partial : forall junk fci, length junk = 17%nat -> bytes fci -> small fci ->
  (app_create_from_fci junk fci = UB <-> fci = []).
Proof.
  intros junk fci L B S. split.
  - intro U. destruct fci as [|b fci]; [reflexivity|]. exfalso.
    destruct (create_fci junk (b :: fci) L B S) as [(a & t & ts & E & _)|(E & _)]; [discriminate| |]; rewrite E in U; discriminate.
  - intros ->. reflexivity.
Qed.
Print Assumptions C64_nonempty_fci_partial.

(** C65.  Pushing appends, popping takes the first application, clearing releases all
    applications of the list and no other; a choice is required exactly if there are
    two applications or one asks for confirmation. *)
Theorem C65_push : forall h l cs a ap nx,
  arep h l cs -> nth_error h a = Some (Some (mkAN ap nx)) -> ~ In a (map fst cs) ->
  exists h' l', alist_push h l a = Ret (0, h', l') /\ arep h' l' (cs ++ [(a, ap)]) /\
    frame h h' (a :: map fst cs) /\ length h' = length h.
Proof. exact apush_spec. Qed.
Print Assumptions C65_push.
Theorem C65_pop : forall h l c cs, arep h l (c :: cs) ->
  exists h' l', alist_pop h l = Ret (Some (fst c), h', l') /\ arep h' l' cs /\
    loose h' (fst c) (snd c) /\ frame h h' [fst c] /\ length h' = length h.
Proof. exact apop_spec. Qed.
Print Assumptions C65_pop.
Theorem C65_pop_empty : forall h l, arep h l [] -> alist_pop h l = Ret (None, h, l).
Proof. exact apop_empty. Qed.
Print Assumptions C65_pop_empty.
Theorem C65_clear : forall h l cs fuel, arep h l cs -> (length cs < fuel)%nat ->
  exists h', alist_clear fuel h l = Ret (h', alist_init) /\
    (forall a, In a (map fst cs) -> nth_error h' a = Some None) /\ frame h h' (map fst cs).
Proof. exact clear_spec. Qed.
Print Assumptions C65_clear.
Theorem C65_selection_required : forall h l cs fuel, arep h l cs -> (length cs < fuel)%nat ->
  exists b, alist_selection_is_required fuel h l = Ret b /\
    (b = true <-> (2 <= length cs)%nat \/ exists c, In c cs /\ a_conf (snd c) = true).
Proof. exact sel_required. Qed.
Print Assumptions C65_selection_required.
(** emv_app_free refuses an application that another one follows, and changes nothing
    then; it releases exactly the one it is given otherwise. *)
Theorem C65_free : forall h l cs i a ap, arep h l cs -> nth_error cs i = Some (a, ap) ->
  ((S i < length cs)%nat -> app_free h a = Ret (1, h)) /\
  (S i = length cs -> exists h', app_free h a = Ret (0, h') /\ nth_error h' a = Some None /\ frame h h' [a]).
Proof.
  intros h l cs i a ap (C & _) E. revert i E. induction C as [|b bp nx cs Hb C IH]; intros i E; [destruct i; discriminate|].
  destruct i as [|i]; cbn [nth_error length] in *.
  - injection E as -> ->. unfold app_free, aload. rewrite Hb. cbn [bind an_next]. split.
    + intros L. destruct C; [cbn [length] in L; lia|reflexivity].
    + intros L. destruct C; [|cbn [length] in L; lia]. eexists. split; [reflexivity|].
      assert (a < length h)%nat by (apply nth_error_Some; rewrite Hb; discriminate).
      split; [rewrite nth_error_upd; destruct (Nat.eqb_spec a a); [|congruence]; destruct (Nat.ltb_spec a (length h)); [reflexivity|lia]|].
      intros z Hz. rewrite nth_error_upd. destruct (Nat.eqb_spec a z) as [<-|]; [exfalso; apply Hz; left; reflexivity|reflexivity].
  - destruct (IH i E) as (I1 & I2). split; intros L; [apply I1|apply I2]; lia.
Qed.
Print Assumptions C65_free.
Example C65_free_ex : app_free xheap 0 = Ret (1, xheap) /\ exists h', app_free xheap 1 = Ret (0, h') /\ h' <> xheap.
Proof. split; [reflexivity|]. eexists. split; [reflexivity|discriminate]. Qed.
Example C65_ex :
  alist_selection_is_required 5 xheap xlist = Ret true /\
  alist_selection_is_required 5 [Some (mkAN (xapp 1 0 false) None)] (mkAL (Some 0%nat) (Some 0%nat)) = Ret false /\
  alist_selection_is_required 5 [Some (mkAN (xapp 1 0 true) None)] (mkAL (Some 0%nat) (Some 0%nat)) = Ret true /\
  alist_clear 5 xheap xlist = Ret ([None; None; None; None], alist_init).
Proof. repeat split. Qed.
