(** Proofs for third party data, issuer authentication data, response codes and single octets. *)
From Coq Require Import String.
From Verif Require Import Base BaseLemmas StrModel CapduModel FieldsModel FlagsModel TlvSpec BerSpec FieldsSpec StrSpec CapduSpec
  FlagsSpec StrProofs CapduProofs FieldsProofs PcscProofs FlagsProofs FlagsTexts FlagsMore.
Open Scope string_scope.
Open Scope Z_scope.
Open Scope list_scope.
Notation length := List.length.

(** ** Third party data *)
Lemma list_eqb_spec a : forall b, list_eqb a b = true <-> a = b.
Proof.
  induction a as [|x a IH]; intros [|y b]; cbn [list_eqb]; split; intros H; try discriminate; try reflexivity.
  - apply andb_prop in H as [H1 H2]. apply Z.eqb_eq in H1. apply IH in H2. congruence.
  - injection H as -> ->. rewrite Z.eqb_refl. cbn [andb]. apply IH. reflexivity.
Qed.
Definition dev_name (a b : Z) : option (list Z) :=
  if forallb (fun c => (48 <=? c) && (c <=? 57)) [a; b] && (10 * (a - 48) + (b - 48) <? 34)
  then Some (lit (nth (Z.to_nat (10 * (a - 48) + (b - 48))) device_names "")) else None.
Definition oeqb (a b : option (list Z)) : bool :=
  match a, b with Some x, Some y => list_eqb x y | None, None => true | _, _ => false end.
Lemma oeqb_eq a b : oeqb a b = true -> a = b.
Proof. destruct a, b; cbn; intros H; try discriminate; [apply list_eqb_spec in H; congruence|reflexivity]. Qed.
Lemma key_none d t : (forall k, In k (map fst t) -> lit k <> d) -> key_lookup d t = None.
Proof.
  induction t as [|[k s] t IH]; intros H; [reflexivity|]. cbn [key_lookup]. destruct (list_eqb (lit k) d) eqn:E.
  - apply list_eqb_spec in E. exfalso. apply (H k); [left; reflexivity|exact E].
  - apply IH. intros k' I. apply H. right. exact I.
Qed.
Lemma digit_keys : forallb (fun k => match lit k with [x; y] => (48 <=? x) && (x <=? 57) && (48 <=? y) && (y <=? 57) | _ => false end) (map fst device_types) = true.
Proof. vm_compute. reflexivity. Qed.
Lemma dev_lookup a b : key_lookup [a; b] device_types = dev_name a b.
Proof.
  destruct ((48 <=? a) && (a <=? 57) && (48 <=? b) && (b <=? 57)) eqn:R.
  - assert (Q : forallb (fun i => forallb (fun j => oeqb (key_lookup [48 + Z.of_nat i; 48 + Z.of_nat j] device_types) (dev_name (48 + Z.of_nat i) (48 + Z.of_nat j))) (seq 0 10)) (seq 0 10) = true)
      by (vm_compute; reflexivity).
    rewrite forallb_forall in Q. specialize (Q (Z.to_nat (a - 48)) ltac:(apply in_seq; lia)). rewrite forallb_forall in Q.
    specialize (Q (Z.to_nat (b - 48)) ltac:(apply in_seq; lia)). apply oeqb_eq in Q. rewrite !Z2Nat.id in Q by lia.
    replace (48 + (a - 48)) with a in Q by lia. replace (48 + (b - 48)) with b in Q by lia. exact Q.
  - rewrite key_none.
    + unfold dev_name. cbn [forallb]. destruct ((48 <=? a) && (a <=? 57)) eqn:Ra; cbn [andb]; [|reflexivity].
      destruct ((48 <=? b) && (b <=? 57)) eqn:Rb; cbn [andb]; [lia|reflexivity].
    + intros k I E. pose proof digit_keys as K. rewrite forallb_forall in K. specialize (K k I). rewrite E in K. lia.
Qed.
Lemma device_text a b : a <> 0 -> b <> 0 ->
  exists s, p_s2 [a; b] = Ret s /\
  lit "Device Type: " ++ s ++ match key_lookup [a; b] device_types with Some x => lit " - " ++ x | None => [] end = device_line [a; b].
Proof.
  intros Ha Hb. exists [a; b]. split; [apply (p_s_ok [a; b] []); repeat (constructor; [assumption|]); constructor|].
  rewrite dev_lookup. unfold dev_name, device_line. destruct (forallb _ [a; b] && _); reflexivity.
Qed.
Lemma p_s2_total d : exists s, p_s2 d = Ret s.
Proof.
  unfold p_s2. induction d as [|x d (s & IH)]; [exists []; reflexivity|]. cbn [app p_s]. destruct (x =? 0); [eexists; reflexivity|]. rewrite IH. eexists; reflexivity.
Qed.
Lemma be2 a b : Z.shiftl a 8 + b = 256 * a + b.
Proof. rewrite Z.shiftl_mul_pow2 by lia. lia. Qed.

Lemma sub_app2 (a b : Z) r : sub (a :: b :: r) 0 2 = Ret [a; b].
Proof. rewrite sub_Ret by (cbn [length]; lia). reflexivity. Qed.
Lemma ext_ids id dev : extension id dev -> exists t d, id = t ++ d /\ (t = [0; 3] /\ length d = 2%nat \/ t = [0x80; 3] /\ d = []).
Proof. intros [d L _|]; [exists [0; 3], d|exists [0x80; 3], []]; split; auto. Qed.
Lemma tpd_data country v t : bytes v -> third_party country v t -> tpd_texts country v = Ret (0, t) /\ full t /\ (5 <= length v <= 32)%nat.
Proof.
  intros B T. destruct T as [cc d Lc Ld Nd|cc id dev data Lc X Ld|cc id dev data Lc X Ld].
  - destruct cc as [|c1 [|c2 [|]]]; cbn [length] in Lc; try lia. destruct d as [|d1 [|d2 [|]]]; cbn [length] in Ld; try lia.
    apply Forall_cons_iff in Nd as [N1 Nd]. apply Forall_cons_iff in Nd as [N2 _].
    destruct (device_text d1 d2 N1 N2) as (s & P & E). split; [|split; [|cbn; lia]].
    + unfold tpd_texts. cbn [app]. rewrite sub_app2. cbn [bind rd nth_error]. change (Z.shiftl 0 8 + 0) with 0. change (Z.land 0 0x8000 =? 0) with true. cbn [Z.eqb orb].
      change (sub [c1; c2; 0; 0; d1; d2; 0] 4 2) with (Ret [d1; d2]). cbn [bind]. rewrite P. cbn [bind]. rewrite E. reflexivity.
    + repeat (apply full_cons; [unfold device_line; discriminate|]). constructor.
  - destruct cc as [|c1 [|c2 [|]]]; cbn [length] in Lc; try lia.
    do 6 (destruct data as [|? data]; [cbn [length] in Ld; lia|]). destruct data as [|]; [|cbn [length] in Ld; lia].
    assert (Bd : bytes [0; 1; z; z0; z1; z2; z3; z4]).
    { apply bytes_app in B as [_ B]. apply bytes_app in B as [_ B]. exact B. }
    destruct X as [d Ld2 Nd|].
    + destruct d as [|d1 [|d2 [|]]]; cbn [length] in Ld2; try lia. apply Forall_cons_iff in Nd as [N1 Nd]. apply Forall_cons_iff in Nd as [N2 _].
      destruct (device_text d1 d2 N1 N2) as (s & P & E). split; [|split; [|cbn; lia]].
      * unfold tpd_texts. cbn [app]. rewrite sub_app2. cbn [bind rd nth_error]. change (Z.shiftl 0 8 + 3) with 3. change (Z.land 3 0x8000 =? 0) with true. cbn [Z.eqb Pos.eqb orb].
        match goal with |- context [sub ?l 4 2] => change (sub l 4 2) with (Ret [d1; d2]) end. cbn [bind]. rewrite P. cbn [bind]. rewrite E.
        match goal with |- context [Zlen ?l] => change (Zlen l) with 14 end. cbn [Z.ltb Z.compare Pos.compare Pos.compare_cont skipn rd nth_error bind].
        change (14 - Z.of_nat 6) with 8. change (Z.shiftl 0 8 + 1) with 1. cbn [Z.ltb Z.compare Pos.compare Pos.compare_cont andb Z.eqb Pos.eqb negb].
        rewrite (prog_run 8 _ tpd_fleet tpd_fleet_table Bd) by first [solve [vm_compute; reflexivity] | unfold Zlen; cbn [length]; lia]. cbn [bind app]. reflexivity.
      * cbn [app]. repeat (apply full_cons; [unfold device_line; discriminate|]). apply full_table. reflexivity.
    + split; [|split; [|cbn; lia]].
      * unfold tpd_texts. cbn [app]. rewrite sub_app2. cbn [bind rd nth_error]. change (Z.shiftl 0x80 8 + 3) with 0x8003. change (Z.land 0x8003 0x8000 =? 0) with false. cbn [Z.eqb Pos.eqb orb bind].
        match goal with |- context [Zlen ?l] => change (Zlen l) with 12 end. cbn [Z.ltb Z.compare Pos.compare Pos.compare_cont skipn rd nth_error bind].
        change (12 - Z.of_nat 4) with 8. change (Z.shiftl 0 8 + 1) with 1. cbn [Z.ltb Z.compare Pos.compare Pos.compare_cont andb Z.eqb Pos.eqb negb].
        rewrite (prog_run 8 _ tpd_fleet tpd_fleet_table Bd) by first [solve [vm_compute; reflexivity] | unfold Zlen; cbn [length]; lia]. cbn [bind app]. reflexivity.
      * cbn [app]. repeat (apply full_cons; [unfold device_line; discriminate|]). apply full_table. reflexivity.
  - destruct cc as [|c1 [|c2 [|]]]; cbn [length] in Lc; try lia.
    do 3 (destruct data as [|? data]; [cbn [length] in Ld; lia|]). destruct data as [|]; [|cbn [length] in Ld; lia].
    assert (Bd : bytes [0; 2; z; z0; z1]).
    { apply bytes_app in B as [_ B]. apply bytes_app in B as [_ B]. exact B. }
    destruct X as [d Ld2 Nd|].
    + destruct d as [|d1 [|d2 [|]]]; cbn [length] in Ld2; try lia. apply Forall_cons_iff in Nd as [N1 Nd]. apply Forall_cons_iff in Nd as [N2 _].
      destruct (device_text d1 d2 N1 N2) as (s & P & E). split; [|split; [|cbn; lia]].
      * unfold tpd_texts. cbn [app]. rewrite sub_app2. cbn [bind rd nth_error]. change (Z.shiftl 0 8 + 3) with 3. change (Z.land 3 0x8000 =? 0) with true. cbn [Z.eqb Pos.eqb orb].
        match goal with |- context [sub ?l 4 2] => change (sub l 4 2) with (Ret [d1; d2]) end. cbn [bind]. rewrite P. cbn [bind]. rewrite E.
        match goal with |- context [Zlen ?l] => change (Zlen l) with 11 end. cbn [Z.ltb Z.compare Pos.compare Pos.compare_cont skipn rd nth_error bind].
        change (11 - Z.of_nat 6) with 5. change (Z.shiftl 0 8 + 2) with 2. cbn [Z.ltb Z.compare Pos.compare Pos.compare_cont andb Z.eqb Pos.eqb negb].
        rewrite (prog_run 5 _ tpd_transit tpd_transit_table Bd) by first [solve [vm_compute; reflexivity] | unfold Zlen; cbn [length]; lia]. cbn [bind app]. reflexivity.
      * cbn [app]. repeat (apply full_cons; [unfold device_line; discriminate|]). apply full_table. reflexivity.
    + split; [|split; [|cbn; lia]].
      * unfold tpd_texts. cbn [app]. rewrite sub_app2. cbn [bind rd nth_error]. change (Z.shiftl 0x80 8 + 3) with 0x8003. change (Z.land 0x8003 0x8000 =? 0) with false. cbn [Z.eqb Pos.eqb orb bind].
        match goal with |- context [Zlen ?l] => change (Zlen l) with 9 end. cbn [Z.ltb Z.compare Pos.compare Pos.compare_cont skipn rd nth_error bind].
        change (9 - Z.of_nat 4) with 5. change (Z.shiftl 0 8 + 2) with 2. cbn [Z.ltb Z.compare Pos.compare Pos.compare_cont andb Z.eqb Pos.eqb negb].
        rewrite (prog_run 5 _ tpd_transit tpd_transit_table Bd) by first [solve [vm_compute; reflexivity] | unfold Zlen; cbn [length]; lia]. cbn [bind app]. reflexivity.
      * cbn [app]. repeat (apply full_cons; [unfold device_line; discriminate|]). apply full_table. reflexivity.
Qed.
Lemma tpd_listed country v t str : bytes v -> str <> [] -> third_party country v t ->
  exists new, tpd_list country v str = Ret (0, new) /\ in_lines str new t.
Proof.
  intros B S T. destruct (tpd_data country v t B T) as (E & F & L). unfold tpd_list. rewrite (Zlen_pos str S).
  destruct (Z.eqb_spec (Zlen v) 0) as [Z0|Z0]; [unfold Zlen in Z0; lia|].
  destruct ((Zlen v <? 5) || (Zlen v >? 32)) eqn:G; [unfold Zlen in G; lia|]. rewrite E. cbn [bind]. apply emit_listed, F.
Qed.
Lemma full_run v p : forall t, run v p = Ret t -> (forall c i m s pre f post, In (Nm c i m s pre f post) p -> pre <> "") -> full t.
Proof.
  induction p as [|s p IH]; intros t R N; cbn [run] in R; [injection R as <-; constructor|].
  destruct (exec v s) as [a| |] eqn:E; cbn [bind] in R; try discriminate. destruct (run v p) as [b| |]; cbn [bind] in R; try discriminate.
  injection R as <-. apply full_app; [|apply IH; [reflexivity|]; intros; eapply N; right; eassumption].
  destruct s as [c yes no|i m cs o|c i m s pre f post]; cbn [exec] in E.
  - destruct (any v c); cbn [bind] in E; try discriminate. injection E as <-. rewrite line_said. apply full_said.
  - destruct (rd v _); cbn [bind] in E; try discriminate. injection E as <-. rewrite line_said. apply full_said.
  - destruct (rd v _); cbn [bind] in E; try discriminate. injection E as <-. destruct (_ || _); [|constructor]. constructor; [|constructor].
    intros Q. apply app_eq_nil in Q as [Q _]. apply lit_nil in Q. apply (N c i m s pre f post); [left; reflexivity|exact Q].
Qed.
Lemma tpd_safe_texts country v : bytes v -> (5 <= length v)%nat -> length v <> 5%nat \/ 128 <= nth 2 v 0 ->
  exists r t, tpd_texts country v = Ret (r, t) /\ (r = 0 \/ r = 1) /\ full t.
Proof.
  intros B L C.
  destruct v as [|c1 [|c2 [|a [|b [|d1 v]]]]]; cbn [length] in L; try lia. cbn [nth] in C.
  assert (Ba : is_byte a) by (apply (octet_byte _ 3) in B; exact B). assert (Bb : is_byte b) by (apply (octet_byte _ 4) in B; exact B).
  unfold tpd_texts. rewrite sub_app2. cbn [bind rd nth_error]. rewrite be2.
  assert (M : Z.land (256 * a + b) 0x8000 =? 0 = (a <? 128)).
  { pose proof (byte_sweep2 (fun a b => Bool.eqb (Z.land (256 * a + b) 0x8000 =? 0) (a <? 128)) ltac:(vm_compute; reflexivity) a b Ba Bb) as Q. apply Bool.eqb_prop in Q. exact Q. }
  rewrite M. unfold is_byte in Ba, Bb.
  set (t0 := lit "Country: " ++ _).
  set (id := 256 * a + b). set (ext := (id =? 0x0003) || (id =? 0x8003)).
  set (t1 := if id =? 0 then _ else _).
  assert (F0 : t0 <> []) by discriminate. assert (F1 : t1 <> []) by (unfold t1; destruct (id =? 0); [discriminate|destruct ext; discriminate]).
  assert (G : forall t2 o p, full t2 -> (p <> [] \/ Zlen (c1 :: c2 :: a :: b :: d1 :: v) < Z.of_nat o + 1) ->
    skipn o (c1 :: c2 :: a :: b :: d1 :: v) = p -> bytes p -> Zlen (c1 :: c2 :: a :: b :: d1 :: v) - Z.of_nat o = Zlen p \/ Zlen (c1 :: c2 :: a :: b :: d1 :: v) < Z.of_nat o + 1 ->
    exists r t,
  (let t := t0 :: t1 :: t2 in
  if Zlen (c1 :: c2 :: a :: b :: d1 :: v) <? Z.of_nat o + 1 then Ret (1, t) else
  let p := skipn o (c1 :: c2 :: a :: b :: d1 :: v) in
  let rem := Zlen (c1 :: c2 :: a :: b :: d1 :: v) - Z.of_nat o in
  let* bad := (if id =? 0 then let* x := rd p 0 in Ret (negb (x =? 0) || negb (rem =? 1)) else Ret (ext && (rem <? 2))) in
  if bad : bool then Ret (1, t ++ [lit "Invalid Proprietary Data"]) else
  if ext then
    let* x := rd p 0 in
    let* y := rd p 1 in
    let product := Z.shiftl x 8 + y in
    if product =? 0x0001 then
      let t := t ++ [lit "Product Identifier: Fleet Card"] in
      if negb (rem =? 8) then Ret (1, t ++ [lit "Invalid Proprietary Data length"])
      else let* z := run p tpd_fleet in Ret (0, t ++ z)
    else if product =? 0x0002 then
      let t := t ++ [lit "Product Identifier: Transit"] in
      if negb (rem =? 5) then Ret (1, t ++ [lit "Invalid Proprietary Data length"])
      else let* z := run p tpd_transit in Ret (0, t ++ z)
    else Ret (0, t ++ [lit "Product Identifier: Unknown"])
  else
    let* x := rd p 0 in
    Ret (0, t ++ (if x =? 0 then [lit "Proprietary Data: Not used"] else []))) = Ret (r, t) /\ (r = 0 \/ r = 1) /\ full t).
  { intros t2 o p F2 P Ep Bp Lp. cbn zeta. rewrite Ep.
    destruct (Z.ltb_spec (Zlen (c1 :: c2 :: a :: b :: d1 :: v)) (Z.of_nat o + 1)) as [S|S].
    { exists 1. eexists. split; [reflexivity|]. split; [right; reflexivity|]. apply full_cons; [exact F0|]. apply full_cons; [exact F1|exact F2]. }
    destruct P as [P|P]; [|lia]. destruct Lp as [Lp|Lp]; [|lia]. rewrite Lp.
    destruct p as [|x p]; [contradiction|]. cbn [rd nth_error bind].
    assert (FT : full (t0 :: t1 :: t2)) by (apply full_cons; [exact F0|]; apply full_cons; [exact F1|exact F2]).
    assert (FA : forall s, s <> "" -> full ((t0 :: t1 :: t2) ++ [lit s])) by (intros s Hs; apply full_app; [exact FT|apply full_one, Hs]).
    assert (REST : exists r t, (if ext then
        let* y := rd (x :: p) 1 in
        if Z.shiftl x 8 + y =? 0x0001 then
          if negb (Zlen (x :: p) =? 8) then Ret (1, ((t0 :: t1 :: t2) ++ [lit "Product Identifier: Fleet Card"]) ++ [lit "Invalid Proprietary Data length"])
          else let* z := run (x :: p) tpd_fleet in Ret (0, ((t0 :: t1 :: t2) ++ [lit "Product Identifier: Fleet Card"]) ++ z)
        else if Z.shiftl x 8 + y =? 0x0002 then
          if negb (Zlen (x :: p) =? 5) then Ret (1, ((t0 :: t1 :: t2) ++ [lit "Product Identifier: Transit"]) ++ [lit "Invalid Proprietary Data length"])
          else let* z := run (x :: p) tpd_transit in Ret (0, ((t0 :: t1 :: t2) ++ [lit "Product Identifier: Transit"]) ++ z)
        else Ret (0, (t0 :: t1 :: t2) ++ [lit "Product Identifier: Unknown"])
      else Ret (0, (t0 :: t1 :: t2) ++ (if x =? 0 then [lit "Proprietary Data: Not used"] else []))) = Ret (r, t) /\ (r = 0 \/ r = 1) /\ full t \/ (ext = true /\ p = [])).
    { destruct ext; [|eexists 0, _; left; split; [reflexivity|]; split; [left; reflexivity|]; apply full_app; [exact FT|]; destruct (x =? 0); [apply full_one; discriminate|constructor]].
      destruct p as [|y p]; [exists 0, []; right; split; reflexivity|]. cbn [rd nth_error bind].
      destruct (Z.shiftl x 8 + y =? 1).
      - destruct (Z.eqb_spec (Zlen (x :: y :: p)) 8) as [E8|E8]; cbn [negb].
        + rewrite (prog_run 8 _ tpd_fleet tpd_fleet_table Bp) by first [solve [vm_compute; reflexivity] | lia]. cbn [bind]. eexists 0, _. left. split; [reflexivity|]. split; [left; reflexivity|].
          apply full_app; [apply FA; discriminate|apply full_table; reflexivity].
        + eexists 1, _. left. split; [reflexivity|]. split; [right; reflexivity|]. apply full_app; [apply FA; discriminate|apply full_one; discriminate].
      - destruct (Z.shiftl x 8 + y =? 2).
        + destruct (Z.eqb_spec (Zlen (x :: y :: p)) 5) as [E8|E8]; cbn [negb].
          * rewrite (prog_run 5 _ tpd_transit tpd_transit_table Bp) by first [solve [vm_compute; reflexivity] | lia]. cbn [bind]. eexists 0, _. left. split; [reflexivity|]. split; [left; reflexivity|].
            apply full_app; [apply FA; discriminate|apply full_table; reflexivity].
          * eexists 1, _. left. split; [reflexivity|]. split; [right; reflexivity|]. apply full_app; [apply FA; discriminate|apply full_one; discriminate].
        + eexists 0, _. left. split; [reflexivity|]. split; [left; reflexivity|]. apply FA; discriminate. }
    destruct REST as (r & t & [REST|[Ee Ep0]]).
    - destruct (id =? 0); cbn [bind].
      + destruct (negb (x =? 0) || negb (Zlen (x :: p) =? 1)).
        * eexists 1, _. split; [reflexivity|]. split; [right; reflexivity|apply FA; discriminate].
        * exists r, t. exact REST.
      + destruct (ext && (Zlen (x :: p) <? 2)).
        * eexists 1, _. split; [reflexivity|]. split; [right; reflexivity|apply FA; discriminate].
        * exists r, t. exact REST.
    - subst p. assert (Hid : id =? 0 = false) by (unfold ext in Ee; lia). rewrite Hid, Ee. cbn [bind]. change (Zlen [x]) with 1. cbn [andb Z.ltb Z.compare Pos.compare Pos.compare_cont].
      eexists 1, _. split; [reflexivity|]. split; [right; reflexivity|apply FA; discriminate]. }
  assert (Bv : bytes (d1 :: v)) by (apply (bytes_skipn 4) in B; exact B).
  destruct (Z.ltb_spec a 128) as [La|La].
  - destruct v as [|d2 v]; [cbn [length] in C; lia|].
    assert (Es : sub (c1 :: c2 :: a :: b :: d1 :: d2 :: v) 4 2 = Ret [d1; d2]) by (rewrite sub_Ret by (cbn [length]; lia); reflexivity).
    rewrite Es. cbn [bind]. destruct (p_s2_total [d1; d2]) as (s & Ps). rewrite Ps. cbn [bind].
    change 7 with (Z.of_nat 6 + 1). apply (G _ 6%nat v).
    + apply full_cons; [discriminate|constructor].
    + destruct v; [right; unfold Zlen; cbn [length]; lia|left; discriminate].
    + reflexivity.
    + apply (bytes_skipn 6) in B. exact B.
    + left. unfold Zlen. cbn [length]. lia.
  - cbn [bind]. change 5 with (Z.of_nat 4 + 1). apply (G [] 4%nat (d1 :: v)).
    + constructor.
    + left; discriminate.
    + reflexivity.
    + exact Bv.
    + left. unfold Zlen. cbn [length]. lia.
Qed.
Lemma tpd_safe country v str : bytes v -> length v <> 5%nat \/ 128 <= nth 2 v 0 ->
  exists r new, tpd_list country v str = Ret (r, new) /\ length new = length str.
Proof.
  intros B C. unfold tpd_list. destruct (Zlen v =? 0); [eexists _, _; split; reflexivity|]. destruct (Zlen str =? 0); [eexists _, _; split; reflexivity|].
  destruct ((Zlen v <? 5) || (Zlen v >? 32)) eqn:G; [eexists _, _; split; reflexivity|].
  destruct (tpd_safe_texts country v B) as (r & t & E & _ & F); [unfold Zlen in G; lia|exact C|]. rewrite E. cbn [bind].
  destruct (emit_listed r t str F) as (new & En & Ln). exists r, new. split; [exact En|exact (in_lines_length _ _ _ Ln)].
Qed.
