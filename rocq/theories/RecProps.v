(** C172: what is told while the application data are read.  Statements: properties.jsonl. *)
From Coq Require Import String.
From Verif Require Import Base BaseLemmas BerModel BerSpec BerProofs TlvListModel TlvModel TlvSpec TlvProofs DolModel TtlModel FieldsModel FieldsSpec FieldsProofs AppModel
  TalModel TalSpec TalProofs StrModel StrSpec FlagsModel FlagsSpec FlagsTexts PrintModel DirModel DirProofs RecModel RecSpec RecProofs.
Open Scope string_scope.
Open Scope Z_scope.
Open Scope list_scope.
Notation length := List.length.

(** The messages change nothing: result, fields and state are those of C30. *)
Theorem C172_in_step T (x : transport T) rfuel s afl l :
  bind (read_afl_n x rfuel s afl l) (fun v => Ret (fst v)) = read_afl_records x rfuel s afl l.
Proof. rewrite <- (read_afl_silent x). unfold silent. destruct (read_afl_n x rfuel s afl l) as [[v n]| |]; reflexivity. Qed.
(** Noting the requests changes nothing. *)
Definition forget {T} (m : out (Z * list field * (T * list (Z * Z)) * list note)) : out (Z * list field * T * list note) :=
  bind m (fun v => match v with (r, l, (s, _), n) => Ret (r, l, s, n) end).
Lemma sfi_forget T (x : transport T) fuel : forall s log e rec oda l n, forget (sfi_loop_n (watched x) fuel (s, log) e rec oda l n) = sfi_loop_n x fuel s e rec oda l n.
Proof.
  unfold forget. induction fuel as [|fuel IH]; intros; [reflexivity|]. cbn [sfi_loop_n]. destruct (a_last e <? rec); [reflexivity|]. cbv zeta.
  cbn [watched x_read fst snd]. destruct (x_read x s (a_sfi e) rec) as [a| |]; cbn [bind n_ret n_data n_sw n_st]; try reflexivity.
  destruct (negb (n_ret a =? 0)); [reflexivity|]. destruct (negb (n_sw a =? 0x9000)); [reflexivity|].
  destruct (sfi_record_n _ _ _ _ _) as [[[[r inv] l'] n']| |]; cbn [bind]; try reflexivity. destruct (negb (r =? 0)); [reflexivity|apply IH].
Qed.
Theorem C172_watched T (x : transport T) rfuel s log afl l : forget (read_afl_n (watched x) rfuel (s, log) afl l) = read_afl_n x rfuel s afl l.
Proof.
  unfold read_afl_n. destruct (length afl =? 0)%nat; [reflexivity|]. destruct (afl_itr_init afl) as [r [itr|]]; [|destruct (r <? 0); reflexivity].
  generalize (Datatypes.S (length afl)) as fuel, false as oda, (@nil note) as n. intros fuel. revert s log itr l.
  induction fuel as [|fuel IH]; intros s log itr l oda n; [reflexivity|]. cbn [afl_loop_n]. destruct (afl_itr_next itr) as [[[r1 e] itr']| |]; cbn [bind]; try reflexivity.
  destruct (0 <? r1); [|destruct (r1 <? 0); reflexivity]. destruct e as [e|]; [|reflexivity]. rewrite <- (sfi_forget _ _ _ s log). unfold forget.
  destruct (sfi_loop_n (watched x) rfuel (s, log) e (a_first e) false l n) as [[[[r2 l2] [s2 log2]] n2]| |]; cbn [bind]; try reflexivity.
  destruct (r2 =? 0); [apply IH|]. destruct (r2 =? TAL_ODA_RECORD_INVALID); [apply IH|reflexivity].
Qed.

(** Whatever the AFL and the records: the requests told are those made, in order; the errors told are that offline
    data authentication is not possible, for as many records, and then the one that ends an error; the result is
    ODA_RECORD_INVALID if and only if authentication was told to be impossible and reading went on to the end; if it
    is 0 every record read was told to be used. *)
Theorem C172_told T (x : transport T) : wf_transport x -> forall rfuel s log afl l r l' s' log' n, bytes afl -> afl <> [] ->
  read_afl_n (watched x) rfuel (s, log) afl l = Ret (r, l', (s', log'), n) ->
  exists reqs k, log' = log ++ reqs /\ filter is_read n = map read_note reqs /\ errors_told r k n /\
    (0 <= r -> (r = 0 \/ r = TAL_ODA_RECORD_INVALID) /\ (r = TAL_ODA_RECORD_INVALID <-> (0 < k)%nat)) /\
    (r = 0 -> length (filter is_used n) = length reqs).
Proof.
  intros W rfuel s log afl l r l' s' log' n B Ne E. unfold read_afl_n in E. destruct (length afl =? 0)%nat eqn:L0.
  { apply Nat.eqb_eq in L0. destruct afl; [contradiction|discriminate]. }
  destruct (afl_itr_init afl) as [r0 [itr|]] eqn:Ei.
  - assert (Q : itr = afl).
    { unfold afl_itr_init in Ei. repeat match type of Ei with (if ?c then _ else _) = _ => destruct c end; try discriminate. now injection Ei as <- <-. }
    subst itr. destruct (afl_told x W rfuel _ _ _ _ _ _ _ _ _ _ _ _ B E) as (reqs & ns & -> & -> & (K1 & k & K2 & K3) & K4).
    exists reqs, k. split; [reflexivity|]. split; [exact K1|]. split; [exact K2|]. split; [|exact K4].
    intros P. destruct (K3 P) as (H1 & H2). split; [exact H1|]. rewrite H2. split; [intros [H|H]; [discriminate|exact H]|auto].
  - assert (R : r0 <? 0 = false).
    { unfold afl_itr_init in Ei. destruct (Z.eqb_spec (Zlen afl) 0) as [Z0|Z0]; [exfalso; destruct afl; [contradiction|unfold Zlen in Z0; cbn [length] in Z0; lia]|].
      repeat match type of Ei with (if ?c then _ else _) = _ => destruct c end; try discriminate; injection Ei as <-; reflexivity. }
    rewrite R in E. assert (r = TAL_AFL_INVALID /\ log' = log /\ n = [Err (lit "Invalid AFL")]) as (-> & -> & ->) by (repeat split; congruence).
    exists [], 0%nat. rewrite app_nil_r. split; [reflexivity|]. split; [reflexivity|]. split; [|split; [intros P; exfalso; revert P; cbv; auto|discriminate]].
    right. split; [reflexivity|]. exists [], (Err (lit "Invalid AFL")). split; [reflexivity|]. split; [apply end_init|reflexivity].
Qed.
(** The message that ends an error tells which. *)
Theorem C172_which r r' m : ended r m -> ended r' m -> r = r'.
Proof.
  intros H1 H2. destruct H1; inversion H2; try reflexivity;
    match goal with H : Err _ = Err _ |- _ => exfalso; revert H; vm_compute; discriminate | H : _ = _ |- _ => exfalso; revert H; cbn [lit app]; vm_compute; discriminate end.
Qed.

(** Within one entry no record is told to be used after one that is invalid.  What is missing: the same for the whole
    AFL, and that only the records that the AFL counts for offline data authentication are told to be used. *)
Theorem C172_used_partial T (x : transport T) : wf_transport x -> forall rfuel s log e l r l' s' log' n, afl_valid e ->
  read_afl_n (watched x) rfuel (s, log) (afl_octets e) l = Ret (r, l', (s', log'), n) ->
  forall a b, n = a ++ not_possible :: b -> filter is_used b = [].
Proof.
  intros W rfuel s log e l r l' s' log' n V E. pose proof V as (V1 & V2 & V3 & V4).
  unfold read_afl_n in E. rewrite <- (app_nil_r (afl_octets e)) in E.
  change (afl_octets e ++ []) with (flat_map afl_octets [e]) in E.
  destruct (afl_init_flat [e] (Forall_cons _ V (Forall_nil _)) ltac:(cbn [length]; lia)) as (_ & Ei). rewrite Ei in E.
  change (length (flat_map afl_octets [e]) =? 0)%nat with false in E. cbv iota in E. change (flat_map afl_octets [e]) with (afl_octets e ++ flat_map afl_octets []) in E.
  cbn [afl_loop_n] in E. rewrite (afl_next_valid e [] V (Forall_nil _)) in E. cbn [bind] in E. change (0 <? 4) with true in E. cbv iota in E.
  assert (Bf : is_byte (a_first e)) by (unfold is_byte; lia).
  destruct (sfi_loop_n (watched x) rfuel (s, log) e (a_first e) false l []) as [[[[r1 l1] [s1 log1]] n1]| |] eqn:Es; cbn [bind] in E; try discriminate.
  destruct (sfi_told x W e V1 _ _ _ _ _ _ _ _ _ _ _ _ Bf Es) as (reqs & ns & -> & -> & _ & Q & _). cbn [app] in *.
  assert (n = ns); [|subst n; exact Q].
  change (flat_map afl_octets []) with (@nil Z) in E.
  assert (End : forall fuel s oda l, afl_loop_n (watched x) (Datatypes.S fuel) rfuel s [] oda l ns = Ret (if oda then TAL_ODA_RECORD_INVALID else 0, l, s, ns)) by reflexivity.
  destruct (r1 =? 0); [|destruct (r1 =? TAL_ODA_RECORD_INVALID)]; [| |congruence];
    (destruct (length (afl_octets e ++ [])) as [|fuel]; [discriminate|rewrite End in E; congruence]).
Qed.

(** But a record is told to be used although the AFL counts none for offline data authentication, and also after
    authentication was told to be impossible, if the record is of another entry. *)
Definition ex_recs (answers : Z -> list Z) : transport unit :=
  mkTr (fun _ _ => Ret (mkAns 0 [] 0x6A82 tt)) (fun _ _ => Ret (mkAns 0 [] 0x6A82 tt))
       (fun _ sfi _ => Ret (mkAns 0 (answers sfi) 0x9000 tt)) (fun _ _ => Ret (mkAns 0 [] 0x6985 tt)).
Definition ex_card := ex_recs (fun sfi => if sfi =? 15 then [1; 2] else [0x70; 3; 0x5A; 1; 0x12]).
Theorem C172_used_refuted :
  (exists e s l n u, a_oda e = 0 /\ afl_valid e /\ read_afl_n ex_card 9 tt (afl_octets e) [] = Ret (0, l, s, n) /\ In u n /\ is_used u = true) /\
  (exists e1 e2 s l a b u, afl_valid e1 /\ afl_valid e2 /\
     read_afl_n ex_card 9 tt (afl_octets e1 ++ afl_octets e2) [] = Ret (TAL_ODA_RECORD_INVALID, l, s, a ++ not_possible :: b) /\ In u b /\ is_used u = true).
Proof.
  split.
  - exists (mkAfl 1 1 1 0). do 3 eexists. exists (Info (lit "Record template content used for offline data authentication")). split; [reflexivity|].
    split; [unfold afl_valid; cbn; lia|]. split; [vm_compute; reflexivity|]. split; [vm_compute; tauto|vm_compute; reflexivity].
  - exists (mkAfl 15 1 1 1), (mkAfl 1 1 1 1). do 2 eexists. exists [read_note (15, 1)].
    exists [read_note (1, 1); Info (lit "Record template content used for offline data authentication")], (Info (lit "Record template content used for offline data authentication")).
    split; [unfold afl_valid; cbn; lia|]. split; [unfold afl_valid; cbn; lia|]. split; [vm_compute; reflexivity|]. split; [right; left; reflexivity|vm_compute; reflexivity].
Qed.

Example C172_ex : exists l n,
  read_afl_n (watched ex_card) 9 (tt, []) [0x08; 1; 2; 1; 0x78; 9; 9; 0] [] = Ret (TAL_ODA_RECORD_INVALID, l, (tt, [(1, 1); (1, 2); (15, 9)]), n) /\ length l = 2%nat /\
  map text_of n = map lit ["READ RECORD from SFI 1, record 1"; "Record template content used for offline data authentication";
    "READ RECORD from SFI 1, record 2"; "Record template content used for offline data authentication";
    "READ RECORD from SFI 15, record 9"; "Offline data authentication not possible due to invalid record"].
Proof. do 2 eexists. split; [vm_compute; reflexivity|]. split; vm_compute; reflexivity. Qed.

Print Assumptions C172_in_step.
Print Assumptions C172_watched.
Print Assumptions C172_told.
Print Assumptions C172_which.
Print Assumptions C172_used_partial.
Print Assumptions C172_used_refuted.
