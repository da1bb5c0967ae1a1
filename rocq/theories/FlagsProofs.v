(** Proofs for the bit field descriptions. *)
From Coq Require Import String.
From Verif Require Import Base BaseLemmas StrModel CapduModel FieldsModel FlagsModel TlvSpec BerSpec FieldsSpec StrSpec CapduSpec
  FlagsSpec StrProofs CapduProofs FieldsProofs PcscProofs.
Open Scope string_scope.
Open Scope Z_scope.
Open Scope list_scope.
Notation length := List.length.

(** ** A table against a list of statements *)
Fixpoint atoms_oct (n k : Z) (ts : list string) : list row :=
  match ts with
  | [] => []
  | t :: ts => (if String.eqb t "" then [] else [Any [(n, [k])] t ""]) ++ atoms_oct n (k - 1) ts
  end.
Definition atoms (r : row) : list row := match r with Oct n ts => atoms_oct n 8 ts | _ => [r] end.

Lemma atoms_oct_texts v n ts : forall k, flat_map (row_texts v) (atoms_oct n k ts) = bits_from k (octet v n) ts.
Proof.
  induction ts as [|t ts IH]; intros k; [reflexivity|]. cbn [atoms_oct bits_from]. rewrite flat_map_app, IH. f_equal.
  destruct (String.eqb t "") eqn:E.
  - unfold said. rewrite E. destruct (bit _ _); reflexivity.
  - cbn [flat_map row_texts existsb fst snd]. rewrite app_nil_r, !Bool.orb_false_r. destruct (bit _ _); [reflexivity|].
    unfold said. reflexivity.
Qed.
Lemma atoms_texts v t : flat_map (row_texts v) (flat_map atoms t) = table_texts t v.
Proof.
  unfold table_texts. induction t as [|r t IH]; [reflexivity|]. cbn [flat_map]. rewrite flat_map_app, IH. f_equal.
  destruct r; cbn [atoms flat_map row_texts]; rewrite ?app_nil_r; try reflexivity. apply atoms_oct_texts.
Qed.

Definition ll_eqb (a b : list (list Z)) : bool := if list_eq_dec (list_eq_dec Z.eq_dec) a b then true else false.
Lemma ll_eqb_eq a b : ll_eqb a b = true -> a = b.
Proof. unfold ll_eqb. destruct (list_eq_dec _ a b); congruence. Qed.

(** The octet a statement or row is about, and what it says when that octet is [b]. *)
Definition stmt_at (st : stmt) : option Z :=
  match st with If [(i, _)] _ _ => Some i | Sw i _ _ _ => Some i | Nm _ i _ _ _ _ _ => Some i | _ => None end.
Definition stmt_says (b : Z) (st : stmt) : list (list Z) :=
  match st with
  | If [(_, m)] yes no => line (if negb (Z.land b m =? 0) then yes else no)
  | If _ _ _ => []
  | Sw _ m cases other => line (pick (Z.land b m) cases other)
  | Nm c _ m s pre f post => if (c =? 0) || negb (Z.land b c =? 0) then [lit pre ++ f (Z.shiftr (Z.land b m) s) ++ lit post] else []
  end.
Definition row_at (r : row) : option Z :=
  match r with Val n _ _ _ _ => Some n | Num n _ _ _ _ _ _ => Some n | _ => None end.
Definition row_says (b : Z) (r : row) : list (list Z) :=
  match r with
  | Val _ hi lo cases other => said (chosen (range b hi lo) cases other)
  | Num _ hi lo always pre f post =>
    let x := range b hi lo in if always || negb (x =? 0) then [lit pre ++ f x ++ lit post] else []
  | _ => []
  end.
Definition named (r : row) : bool := match r with Num _ _ _ _ pre _ _ => negb (String.eqb pre "") | _ => true end.

Fixpoint same_masks (c : list (Z * Z)) (l : list (Z * list Z)) : bool :=
  match c, l with
  | [], [] => true
  | (i, m) :: c, (n, ks) :: l =>
    (0 <=? i) && (n =? i + 1) && forallb (fun b => Bool.eqb (negb (Z.land b m =? 0)) (existsb (bit b) ks)) all_bytes && same_masks c l
  | _, _ => false
  end.
Definition group_ok (N : Z) (g : list stmt) (r : row) : bool :=
  match g, r with
  | [If c yes no], Any l yes' no' =>
    String.eqb yes yes' && String.eqb no no' && same_masks c l && forallb (fun x => fst x <=? N) l
  | _, _ =>
    match row_at r with
    | None => false
    | Some n =>
      (1 <=? n) && (n <=? N) && named r &&
      forallb (fun st => match stmt_at st with Some i => i =? n - 1 | None => false end) g &&
      forallb (fun b => ll_eqb (flat_map (stmt_says b) g) (row_says b r)) all_bytes
    end
  end.
Fixpoint groups_ok (N : Z) (gs : list (list stmt)) (rs : list row) : bool :=
  match gs, rs with
  | [], [] => true
  | g :: gs, r :: rs => group_ok N g r && groups_ok N gs rs
  | _, _ => false
  end.
Definition prog_ok (N : Z) (p : list stmt) (t : list row) : bool := groups_ok N (map (fun s => [s]) p) (flat_map atoms t).

Lemma run_app v p q : run v (p ++ q) = let* a := run v p in let* b := run v q in Ret (a ++ b).
Proof.
  induction p as [|s p IH]; [cbn [app run bind]; destruct (run v q); reflexivity|].
  cbn [app run]. destruct (exec v s) as [x| |]; cbn [bind]; [|reflexivity|reflexivity].
  rewrite IH. destruct (run v p) as [y| |]; cbn [bind]; [|reflexivity|reflexivity].
  destruct (run v q) as [z| |]; cbn [bind]; [|reflexivity|reflexivity]. rewrite app_assoc. reflexivity.
Qed.
Lemma rd_octet v i : 0 <= i -> i < Zlen v -> rd v (Z.to_nat i) = Ret (octet v (i + 1)).
Proof.
  intros H0 H1. unfold Zlen in H1. apply rd_Ret. unfold octet. replace (i + 1 - 1) with i by lia.
  apply nth_error_nth'. lia.
Qed.
Lemma octet_byte v n : bytes v -> is_byte (octet v n).
Proof.
  intros B. unfold octet. destruct (Nat.lt_ge_cases (Z.to_nat (n - 1)) (length v)) as [L|L].
  - apply (proj1 (Forall_forall is_byte v) B). apply nth_In. exact L.
  - rewrite nth_overflow by exact L. unfold is_byte; lia.
Qed.
Lemma line_said s : line s = said s.
Proof. destruct s; reflexivity. Qed.
Lemma any_masks v c : forall l, bytes v -> same_masks c l = true -> forallb (fun x => fst x <=? Zlen v) l = true ->
  any v c = Ret (existsb (fun x => existsb (bit (octet v (fst x))) (snd x)) l).
Proof.
  induction c as [|[i m] c IH]; intros [|[n ks] l] B S L; cbn [same_masks] in S; try discriminate; [reflexivity|].
  apply andb_prop in S as [S S2]. apply andb_prop in S as [S S1]. apply andb_prop in S as [S0 S]. apply Z.leb_le in S0. apply Z.eqb_eq in S. subst n.
  cbn [forallb fst] in L. apply andb_prop in L as [L1 L]. apply Z.leb_le in L1.
  cbn [any existsb fst snd]. rewrite rd_octet by lia. cbn [bind].
  pose proof (byte_sweep _ S1 (octet v (i + 1)) (octet_byte _ _ B)) as Q. cbn beta in Q. apply Bool.eqb_prop in Q.
  rewrite Q. destruct (existsb (bit _) ks); [reflexivity|]. cbn [orb]. apply IH; assumption.
Qed.
Lemma exec_says v st i : stmt_at st = Some i -> 0 <= i < Zlen v -> exec v st = Ret (stmt_says (octet v (i + 1)) st).
Proof.
  intros A L. destruct st as [[|[j m] [|? ?]] yes no|j m cases other|c j m s pre f post]; cbn in A; try discriminate;
    injection A as <-; cbn [exec any]; rewrite rd_octet by lia; cbn [bind stmt_says]; try reflexivity.
  destruct (negb _); reflexivity.
Qed.
Lemma run_says v i g : forallb (fun st => match stmt_at st with Some j => j =? i | None => false end) g = true -> 0 <= i < Zlen v ->
  run v g = Ret (flat_map (stmt_says (octet v (i + 1))) g).
Proof.
  intros F L. induction g as [|s g IH]; [reflexivity|]. cbn [forallb] in F. apply andb_prop in F as [F1 F].
  cbn [run flat_map]. destruct (stmt_at s) as [j|] eqn:A; [|discriminate]. apply Z.eqb_eq in F1. subst j.
  rewrite (exec_says v s i A L). cbn [bind]. rewrite (IH F). reflexivity.
Qed.
Lemma row_says_texts v r n : row_at r = Some n -> row_texts v r = row_says (octet v n) r.
Proof. destruct r; cbn; intros A; try discriminate; injection A as <-; reflexivity. Qed.
Lemma group_run N v g r : bytes v -> N <= Zlen v -> group_ok N g r = true -> run v g = Ret (row_texts v r).
Proof.
  intros B L G.
  assert (X : match row_at r with
    | None => false
    | Some n =>
      (1 <=? n) && (n <=? N) && named r &&
      forallb (fun st => match stmt_at st with Some i => i =? n - 1 | None => false end) g &&
      forallb (fun b => ll_eqb (flat_map (stmt_says b) g) (row_says b r)) all_bytes
    end = true -> run v g = Ret (row_texts v r)).
  { destruct (row_at r) as [n|] eqn:A; [|discriminate]. intros H.
    apply andb_prop in H as [H H5]. apply andb_prop in H as [H H4]. apply andb_prop in H as [H H3]. apply andb_prop in H as [H1 H2].
    apply Z.leb_le in H1, H2. rewrite (run_says v (n - 1) g H4) by lia. replace (n - 1 + 1) with n by lia.
    pose proof (byte_sweep _ H5 _ (octet_byte v n B)) as Q. cbn beta in Q. apply ll_eqb_eq in Q. rewrite Q.
    rewrite (row_says_texts v r n A). reflexivity. }
  destruct g as [|[c yes no|? ? ? ?|? ? ? ? ? ? ?] [|? ?]]; try (apply X; exact G).
  destruct r as [| l yes' no'| |]; try (apply X; exact G).
  cbn [group_ok] in G. apply andb_prop in G as [G G4]. apply andb_prop in G as [G G3]. apply andb_prop in G as [G1 G2].
  apply String.eqb_eq in G1, G2. subst.
  cbn [run exec]. rewrite (any_masks v c l B G3).
  - cbn [bind]. rewrite app_nil_r, line_said. reflexivity.
  - rewrite forallb_forall in *. intros x I. specialize (G4 x I). apply Z.leb_le in G4. apply Z.leb_le. lia.
Qed.
Lemma groups_run N v : bytes v -> N <= Zlen v -> forall gs rs, groups_ok N gs rs = true ->
  run v (List.concat gs) = Ret (flat_map (row_texts v) rs).
Proof.
  intros B L. induction gs as [|g gs IH]; intros [|r rs] G; cbn [groups_ok] in G; try discriminate; [reflexivity|].
  apply andb_prop in G as [G1 G2]. cbn [List.concat flat_map]. rewrite run_app, (group_run N v g r B L G1). cbn [bind].
  rewrite (IH rs G2). reflexivity.
Qed.
Lemma concat_single {A} (l : list A) : List.concat (map (fun x => [x]) l) = l.
Proof. induction l as [|x l IH]; [reflexivity|]. cbn. rewrite IH. reflexivity. Qed.
Lemma groups_run_table N v gs p t : bytes v -> N <= Zlen v -> groups_ok N gs (flat_map atoms t) = true -> List.concat gs = p ->
  run v p = Ret (table_texts t v).
Proof. intros B L G <-. rewrite (groups_run N v B L _ _ G), atoms_texts. reflexivity. Qed.
Lemma prog_run N v p t : bytes v -> N <= Zlen v -> prog_ok N p t = true -> run v p = Ret (table_texts t v).
Proof. intros B L G. eapply groups_run_table; [exact B|exact L|exact G|apply concat_single]. Qed.

(** No empty texts. *)
Definition full (l : list (list Z)) : Prop := Forall (fun t => t <> []) l.
Lemma full_said s : full (said s).
Proof. unfold said, full. destruct s; [constructor|]. constructor; [discriminate|constructor]. Qed.
Lemma full_app a b : full a -> full b -> full (a ++ b).
Proof. apply Forall_app_2 || (intros; apply Forall_app; split; assumption). Qed.
Lemma lit_nil s : lit s = [] -> s = "".
Proof. destruct s; [reflexivity|discriminate]. Qed.
Lemma full_row v r : named r = true -> full (row_texts v r).
Proof.
  destruct r as [n ts|l yes no|n hi lo cases other|n hi lo always pre f post]; intros H; cbn [row_texts].
  - generalize 8. induction ts as [|t ts IH]; intros k; [constructor|]. cbn [bits_from]. apply full_app; [|apply IH; reflexivity].
    destruct (bit _ _); [apply full_said|constructor].
  - apply full_said.
  - apply full_said.
  - destruct (_ || _); [|constructor]. constructor; [|constructor]. cbn in H. intros E.
    apply app_eq_nil in E as [E _]. apply lit_nil in E. subst. discriminate.
Qed.
Lemma full_table v t : forallb named t = true -> full (table_texts t v).
Proof.
  intros H. unfold table_texts. induction t as [|r t IH]; [constructor|]. cbn [forallb] in H. apply andb_prop in H as [H1 H2].
  cbn [flat_map]. apply full_app; [apply full_row; exact H1|apply IH; exact H2].
Qed.

(** ** Lists in a buffer *)
Lemma emit_listed r texts str : full texts -> exists new, emit r texts str = Ret (r, new) /\ in_lines str new texts.
Proof.
  intros F. destruct (emv_list' texts str) as (itr & c & E & C & W & T & O). unfold emit. rewrite E. cbn [bind].
  exists (s_buf itr). split; [reflexivity|]. exists c. split; [exact C|]. split; [apply W; exact F|]. split; assumption.
Qed.

Lemma Zlen_pos {A} (l : list A) : l <> [] -> Zlen l =? 0 = false.
Proof. intros H. unfold Zlen. destruct l; [contradiction|]. apply Z.eqb_neq. cbn [length]. lia. Qed.

Lemma field_listed strict n p t : prog_ok n p t = true -> forallb named t = true -> 0 < n ->
  forall v str, bytes v ->
  (Zlen v = n -> str <> [] -> exists new, field_list strict n p v str = Ret (0, new) /\ in_lines str new (table_texts t v)) /\
  (Zlen v <> n -> str <> [] -> exists r, r <> 0 /\ field_list strict n p v str = Ret (r, str)).
Proof.
  intros P F N v str B. split.
  - intros L S. unfold field_list. rewrite (Zlen_pos str S), L. destruct (n =? 0) eqn:E; [lia|]. rewrite Z.eqb_refl. cbn [negb].
    rewrite (prog_run n v p t B ltac:(lia) P). cbn [bind]. apply emit_listed. apply full_table, F.
  - intros L S. unfold field_list. rewrite (Zlen_pos str S). destruct (Zlen v =? 0); [exists (-1); split; [lia|reflexivity]|].
    destruct (Zlen v =? n) eqn:E; [lia|]. exists 1. split; [lia|reflexivity].
Qed.

(** ** Every bit is shown *)
Definition covers (t : list row) (n k : Z) : bool :=
  existsb (fun r => match r with Any l yes _ => negb (String.eqb yes "") && existsb (fun x => (fst x =? n) && existsb (Z.eqb k) (snd x)) l | _ => false end) (flat_map atoms t).
Definition all_bits : list Z := [8;7;6;5;4;3;2;1].
Definition silent (t : list row) : bool := forallb (fun r => match r with Any _ _ no => String.eqb no "" | _ => false end) (flat_map atoms t).
Definition covered (t : list row) (N : nat) : bool :=
  forallb (fun n => forallb (covers t (Z.of_nat n)) all_bits) (seq 1 N).

Lemma byte_bits b : is_byte b -> b <> 0 -> existsb (bit b) all_bits = true.
Proof.
  intros B H.
  pose proof (byte_sweep (fun b => (b =? 0) || existsb (bit b) all_bits) ltac:(vm_compute; reflexivity) b B) as Q. cbn beta in Q.
  apply orb_prop in Q as [Q|Q]; [lia|exact Q].
Qed.
Lemma covered_spec t v : covered t (length v) = true -> silent t = true -> bytes v ->
  (table_texts t v = [] <-> Forall (fun b => b = 0) v).
Proof.
  intros C S B. split.
  - intros E. apply Forall_forall. intros b I. destruct (Z.eq_dec b 0) as [|NZ]; [assumption|exfalso].
    apply (In_nth _ _ 0) in I as (i & Hi & Eb).
    unfold covered in C. rewrite forallb_forall in C. specialize (C (Datatypes.S i) ltac:(apply in_seq; lia)). rewrite forallb_forall in C.
    assert (Ob : octet v (Z.of_nat (Datatypes.S i)) = b). { unfold octet. replace (Z.to_nat (Z.of_nat (Datatypes.S i) - 1)) with i by lia. exact Eb. }
    assert (Bb : is_byte b). { rewrite <- Ob. apply octet_byte, B. }
    pose proof (byte_bits b Bb NZ) as Q. apply existsb_exists in Q as (k & Ik & Bk). specialize (C k Ik).
    unfold covers in C. apply existsb_exists in C as (r & Ir & Cr). destruct r as [|l yes no| |]; try discriminate.
    apply andb_prop in Cr as [Y Cr]. apply existsb_exists in Cr as ([n ks] & Il & Q). cbn [fst snd] in Q. apply andb_prop in Q as [Qn Qk].
    apply Z.eqb_eq in Qn. subst n. apply existsb_exists in Qk as (k' & Ik' & Qk). apply Z.eqb_eq in Qk. subst k'.
    rewrite <- atoms_texts in E.
    assert (R : row_texts v (Any l yes no) = []).
    { apply incl_l_nil. rewrite <- E. intros x Ix. apply in_flat_map. exists (Any l yes no). split; assumption. }
    cbn [row_texts] in R.
    assert (T : existsb (fun x => existsb (bit (octet v (fst x))) (snd x)) l = true).
    { apply existsb_exists. exists (Z.of_nat (Datatypes.S i), ks). split; [exact Il|]. cbn [fst snd]. apply existsb_exists. exists k. split; [exact Ik'|].
      rewrite Ob. exact Bk. }
    rewrite T in R. unfold said in R. destruct (String.eqb yes ""); discriminate.
  - intros F. rewrite <- atoms_texts. unfold silent in S. rewrite forallb_forall in S.
    assert (O : forall n, octet v n = 0).
    { intros n. unfold octet. destruct (nth_in_or_default (Z.to_nat (n - 1)) v 0) as [I|I]; [|exact I].
      exact (proj1 (Forall_forall _ v) F _ I). }
    induction (flat_map atoms t) as [|r rs IH]; [reflexivity|]. cbn [flat_map]. rewrite IH by (intros x Ix; apply S; right; exact Ix).
    rewrite app_nil_r. specialize (S r (or_introl eq_refl)). destruct r as [|l yes no| |]; try discriminate.
    apply String.eqb_eq in S. subst no. cbn [row_texts].
    replace (existsb _ l) with false; [reflexivity|]. symmetry. apply Bool.not_true_iff_false. intros Q.
    apply existsb_exists in Q as (x & _ & Q). apply existsb_exists in Q as (k & _ & Q). rewrite O in Q. unfold bit in Q.
    destruct (Z.eq_dec (2 ^ (k - 1)) 0) as [Z0|Z0]; [rewrite Z0 in Q; discriminate|]. rewrite Z.div_0_l in Q by exact Z0. discriminate.
Qed.
