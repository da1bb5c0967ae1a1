(** Proofs about emv-decode. *)
From Coq Require Import String.
From Verif Require Import Base BaseLemmas BerModel TlvModel StrModel CapduModel FieldsModel FlagsModel AtrModel Iso8859Model InfoModel ToolsModel PrintModel DecodeModel
  TlvSpec BerSpec FieldsSpec StrSpec CapduSpec FlagsSpec InfoSpec ToolsSpec Iso8859Spec DecodeSpec
  StrProofs CapduProofs FieldsProofs FlagsProofs FlagsTexts FlagsProps PrintProofs Iso8859Props ToolsProps.
Open Scope string_scope.
Open Scope Z_scope.
Open Scope list_scope.
Notation length := List.length.

(** ** How long the lines of a table can get, and that they have no NUL *)
Definition clean (l : list Z) : bool := forallb (fun c => negb (c =? 0)) l.
Definition all_octets : list Z := map Z.of_nat (seq 0 256).
Definition size_of (s : string) : nat := if String.eqb s "" then O else Datatypes.S (length (lit s)).
Definition row_clean (r : row) : bool :=
  match r with
  | Oct _ ts => forallb (fun t => clean (lit t)) ts
  | Any _ a b => clean (lit a) && clean (lit b)
  | Val _ _ _ cs o => clean (lit o) && forallb (fun c => clean (lit (snd c))) cs
  | Num _ hi lo _ a f b => (lo <=? hi) && (hi <=? lo + 7) && forallb (fun x => clean (lit a ++ f x ++ lit b)) all_octets
  end.
Definition row_cap (r : row) : nat :=
  match r with
  | Oct _ ts => fold_right (fun t n => size_of t + n)%nat O ts
  | Any _ a b => Nat.max (size_of a) (size_of b)
  | Val _ _ _ cs o => fold_right (fun c n => Nat.max (size_of (snd c)) n) (size_of o) cs
  | Num _ _ _ _ a f b => fold_right (fun x n => Nat.max (Datatypes.S (length (lit a ++ f x ++ lit b))) n) O all_octets
  end.
Definition table_cap (t : list row) : nat := fold_right (fun r n => row_cap r + n)%nat O t.

Lemma clean_nz l : clean l = true -> nz l. Proof. apply nz_check. Qed.
Lemma lines_app a b : lines (a ++ b) = lines a ++ lines b. Proof. apply flat_map_app. Qed.
Lemma lines_nz t : Forall nz t -> nz (lines t).
Proof. induction 1 as [|x t X H IH]; [constructor|]. cbn [lines flat_map]. apply nz_app; [apply nz_app; [exact X|constructor; [lia|constructor]]|exact IH]. Qed.
Lemma said_clean s : clean (lit s) = true -> Forall nz (said s).
Proof. intros H. unfold said. destruct (String.eqb s ""); constructor; [apply clean_nz; exact H|constructor]. Qed.
Lemma said_size s : length (lines (said s)) = size_of s.
Proof. unfold said, size_of. destruct (String.eqb s ""); [reflexivity|]. cbn [lines flat_map]. rewrite app_nil_r, app_length. cbn [length]. lia. Qed.
Lemma bits_clean b ts : forall k, forallb (fun t => clean (lit t)) ts = true -> Forall nz (bits_from k b ts).
Proof.
  induction ts as [|t ts IH]; intros k H; [constructor|]. cbn [forallb] in H. apply andb_prop in H as [H1 H2]. cbn [bits_from]. apply Forall_app. split; [|apply IH; exact H2].
  destruct (bit b k); [apply said_clean; exact H1|constructor].
Qed.
Lemma bits_size b ts : forall k, (length (lines (bits_from k b ts)) <= fold_right (fun t n => size_of t + n)%nat O ts)%nat.
Proof.
  induction ts as [|t ts IH]; intros k; [cbn; lia|]. cbn [bits_from fold_right]. rewrite lines_app, app_length. specialize (IH (k - 1)).
  destruct (bit b k); [rewrite said_size|cbn [lines flat_map length]]; lia.
Qed.
Lemma chosen_clean x cs o : clean (lit o) = true -> forallb (fun c => clean (lit (snd c))) cs = true -> clean (lit (chosen x cs o)) = true.
Proof.
  intros H. induction cs as [|[k s] cs IH]; intros F; [exact H|]. cbn [forallb snd] in F. apply andb_prop in F as [F1 F2]. cbn [chosen]. destruct (x =? k); auto.
Qed.
Lemma chosen_size x cs o : (size_of (chosen x cs o) <= fold_right (fun c n => Nat.max (size_of (snd c)) n) (size_of o) cs)%nat.
Proof. induction cs as [|[k s] cs IH]; [cbn; lia|]. cbn [chosen fold_right snd]. destruct (x =? k); lia. Qed.
Lemma in_octets x : 0 <= x < 256 -> In x all_octets.
Proof. intros R. unfold all_octets. apply in_map_iff. exists (Z.to_nat x). split; [lia|apply in_seq; lia]. Qed.
Lemma range_octet b hi lo : lo <= hi -> hi <= lo + 7 -> 0 <= range b hi lo < 256.
Proof.
  intros H1 H2. unfold range. pose proof (Z.pow_le_mono_r 2 (hi - lo + 1) 8 ltac:(lia) ltac:(lia)) as P. change (2 ^ 8) with 256 in P.
  assert (Q : 0 < 2 ^ (hi - lo + 1)) by (apply Z.pow_pos_nonneg; lia). pose proof (Z.mod_pos_bound (b / 2 ^ (lo - 1)) _ Q). lia.
Qed.
Lemma max_in (f : Z -> nat) x l : In x l -> (f x <= fold_right (fun x n => Nat.max (f x) n) O l)%nat.
Proof. induction l as [|y l IH]; cbn [In fold_right]; [tauto|]. intros [->|I]; [lia|specialize (IH I); lia]. Qed.
Lemma row_nz v r : row_clean r = true -> Forall nz (row_texts v r).
Proof.
  destruct r as [n ts|l a b|n hi lo cs o|n hi lo al a f b]; cbn [row_clean row_texts]; intros H.
  - apply bits_clean; exact H.
  - apply andb_prop in H as [H1 H2]. apply said_clean. destruct (existsb _ l); assumption.
  - apply andb_prop in H as [H1 H2]. apply said_clean, chosen_clean; assumption.
  - apply andb_prop in H as [H H3]. apply andb_prop in H as [H1 H2]. destruct (al || _); [|constructor]. constructor; [|constructor].
    rewrite forallb_forall in H3. apply clean_nz, H3, in_octets, range_octet; lia.
Qed.
Lemma row_size v r : row_clean r = true -> (length (lines (row_texts v r)) <= row_cap r)%nat.
Proof.
  destruct r as [n ts|l a b|n hi lo cs o|n hi lo al a f b]; cbn [row_clean row_texts row_cap]; intros H.
  - apply bits_size.
  - rewrite said_size. destruct (existsb _ l); lia.
  - rewrite said_size. apply chosen_size.
  - apply andb_prop in H as [H H3]. apply andb_prop in H as [H1 H2]. destruct (al || _); [|cbn [lines flat_map length]; lia].
    cbn [lines flat_map]. rewrite app_nil_r, app_length. cbn [length].
    pose proof (max_in (fun x => Datatypes.S (length (lit a ++ f x ++ lit b))) (range (octet v n) hi lo) all_octets ltac:(apply in_octets, range_octet; lia)) as M. cbn beta in M. lia.
Qed.
Lemma table_nz t v : forallb row_clean t = true -> Forall nz (table_texts t v).
Proof.
  induction t as [|r t IH]; intros H; [constructor|]. cbn [forallb] in H. apply andb_prop in H as [H1 H2]. cbn [table_texts flat_map]. apply Forall_app. split; [apply row_nz; exact H1|apply IH; exact H2].
Qed.
Lemma table_size t v : forallb row_clean t = true -> (length (lines (table_texts t v)) <= table_cap t)%nat.
Proof.
  induction t as [|r t IH]; intros H; [cbn; lia|]. cbn [forallb] in H. apply andb_prop in H as [H1 H2]. cbn [table_texts flat_map table_cap fold_right]. rewrite lines_app, app_length.
  pose proof (row_size v r H1). specialize (IH H2). unfold table_texts, table_cap in IH. lia.
Qed.

(** ** The lines of a field *)
Lemma be_bound x : bytes x -> length x = 4%nat -> 0 <= be x < 10000000000.
Proof.
  intros B L. destruct x as [|a [|b [|c [|d [|? ?]]]]]; try discriminate. unfold bytes in B. repeat match goal with H : Forall _ (_ :: _) |- _ => inversion H; clear H; subst end.
  unfold is_byte in *. unfold be. cbn [fold_left]. lia.
Qed.
Lemma cond_nz b x y : nz x -> nz y -> nz (cond_words b x y).
Proof.
  intros X Y. unfold cond_words. destruct ((6 <=? b) && (b <=? 9)).
  - unfold limit_words. apply nz_app; [apply clean_nz; reflexivity|]. apply nz_app; [destruct (Z.even b); apply clean_nz; reflexivity|].
    apply nz_app; [destruct (b <? 8); assumption|apply clean_nz; reflexivity].
  - apply clean_nz, chosen_clean; reflexivity.
Qed.
Lemma cvm_name_nz b : nz (lit (cvm_name b)). Proof. apply clean_nz, chosen_clean; reflexivity. Qed.
Lemma rule_nz x y r : 0 <= x < 10000000000 -> 0 <= y < 10000000000 -> nz (rule_line x y r).
Proof.
  intros X Y. unfold rule_line. apply nz_app; [apply cond_nz; apply decimal_text_nz; assumption|]. apply nz_app; [apply clean_nz; reflexivity|].
  apply nz_app; [apply cvm_name_nz|]. apply nz_app; [apply clean_nz; reflexivity|]. destruct (bit (fst r) 7); apply clean_nz; reflexivity.
Qed.
Lemma iad_nz f v : Forall nz (iad_texts f v).
Proof.
  assert (D : forall n, 0 <= n < 10 -> nz (lit "IAD Format: " ++ decimal_text n)) by (intros n R; apply nz_app; [apply clean_nz; reflexivity|apply decimal_text_nz; lia]).
  unfold iad_texts.
  repeat match goal with |- Forall _ (if ?b then _ else _) => destruct b end;
    repeat match goal with |- Forall _ (_ :: _) => constructor end; try (apply clean_nz; reflexivity); try (apply D; lia); apply table_nz; vm_compute; reflexivity.
Qed.
Lemma described_nz m v t : bytes v -> described m v t -> Forall nz t.
Proof.
  intros B D. destruct D as [b|v L|v L|x y rules Lx Ly Lr|a b c|v L|v L|f v L I F|v L|v L|v L R|v L|v L]; try (apply table_nz; vm_compute; reflexivity).
  - repeat constructor; (apply clean_nz, chosen_clean; reflexivity).
  - apply bytes_app in B as [Bx B]. apply bytes_app in B as [By _]. apply Forall_map, Forall_forall. intros r _. apply rule_nz; apply be_bound; assumption.
  - inversion B as [|? ? Ba B1]; subst. inversion B1 as [|? ? Bb B2]; subst. inversion B2 as [|? ? Bc B3]; subst. unfold is_byte in *.
    constructor; [|constructor; [|constructor; [|constructor]]].
    + apply nz_app; [apply clean_nz; reflexivity|]. destruct (a =? 63); [apply clean_nz; reflexivity|apply cvm_name_nz].
    + apply nz_app; [apply clean_nz; reflexivity|]. apply cond_nz; apply clean_nz; reflexivity.
    + apply nz_app; [apply clean_nz; reflexivity|]. destruct (c =? 0); [apply clean_nz; reflexivity|]. destruct (c =? 1); [apply clean_nz; reflexivity|].
      destruct (c =? 2); [apply clean_nz; reflexivity|apply decimal_text_nz; lia].
  - apply iad_nz.
Qed.
Lemma shown_lines str new t : in_lines str new t -> t <> [] -> (3 <= length str)%nat -> (length (lines t) < length str)%nat -> Forall nz t -> p_s new = Ret (lines t).
Proof.
  intros I NE L F N. apply Nat.leb_le in L. apply Nat.ltb_lt in F. rewrite (in_lines_fits _ _ _ I NE L F). apply p_s_cstring, cstring_app, lines_nz; exact N.
Qed.
Lemma listed ok wrong call failed str new t : ok = true -> call = Ret (0, new) -> in_lines str new t -> t <> [] -> (3 <= length str)%nat -> (length (lines t) < length str)%nat ->
  Forall nz t -> list_mode ok wrong call failed = Ret (lines t, []).
Proof. intros -> -> I NE L F N. unfold list_mode. cbn [negb bind]. rewrite (shown_lines _ _ _ I NE L F N). reflexivity. Qed.
Lemma nonempty {A} (l : list A) n : length l = n -> n <> O -> l <> []. Proof. intros L N ->. cbn in L. lia. Qed.
Lemma app_parts {A} (a : list A) : forall a' b b', a ++ b = a' ++ b' -> length a = length a' -> a = a' /\ b = b'.
Proof. induction a as [|x a IH]; intros [|x' a'] b b' E L; try discriminate; [auto|]. injection E as -> E. injection L as L. destruct (IH _ _ _ E L) as [-> ->]. auto. Qed.
Lemma rules_same (r : list (Z * Z)) : forall r', flat_map (fun r => [fst r; snd r]) r = flat_map (fun r => [fst r; snd r]) r' -> r = r'.
Proof. induction r as [|[a b] r IH]; intros [|[a' b'] r'] E; try discriminate; [reflexivity|]. cbn [flat_map fst snd app] in E. injection E as -> -> E. rewrite (IH _ E). reflexivity. Qed.
Lemma decode_listed c short long beyond pad m v t arg : bytes v -> length short = 1024%nat -> length long = 2048%nat -> length (j_cond (c_env c)) = 128%nat ->
  described m v t -> ~ misread m v -> t <> [] -> (length (lines t) < array_of m)%nat -> decode c short long beyond pad m v arg = Ret (lines t, []).
Proof.
  intros B Ls Ll J D M NE F. pose proof (described_nz m v t B D) as N.
  assert (Ns : short <> []) by (eapply nonempty; [exact Ls|discriminate]). assert (Nl : long <> []) by (eapply nonempty; [exact Ll|discriminate]).
  destruct C93_bit_fields as (F1 & _ & _ & F4 & F5 & F6 & F7 & F8 & F9).
  destruct D as [b|v L|v L|x y rules Lx Ly Lr|a b d|v L|v L|f v L I FI|v L|v L|v L R|v L|v L]; cbn [decode array_of misread] in *.
  - inversion B as [|? ? Bb _]; subst. cbn [hd] in M. destruct (C100_terminal_type_partial b short Bb) as (new & E & I); try lia; [exact Ns|].
    eapply (listed _ _ _ _ short); [reflexivity|cbn [rd nth_error bind]; exact E|exact I|exact NE|lia|lia|exact N].
  - destruct (F1 v short B Ns) as [A _]. destruct (A ltac:(unfold Zlen; lia)) as (new & E & I). eapply (listed _ _ _ _ short); [unfold Zlen; rewrite L; reflexivity|exact E|exact I|exact NE|lia|lia|exact N].
  - destruct (C94_additional_capabilities_partial v short B Ns) as [A _]. destruct (A ltac:(unfold Zlen; lia) M) as (new & E & I).
    eapply (listed _ _ _ _ short); [unfold Zlen; rewrite L; reflexivity|exact E|exact I|exact NE|lia|lia|exact N].
  - destruct (C96_cvm_list_text (j_cond (c_env c)) _ long B Nl J) as [(r & _ & _ & W)|(x' & y' & rules' & new & E & Lx' & Ly' & _ & C & I)].
    + exfalso. unfold Zlen in W. rewrite !app_length, Lx, Ly in W. assert (K : length (flat_map (fun r : Z * Z => [fst r; snd r]) rules) = (2 * length rules)%nat).
      { clear. induction rules as [|r rules IH]; [reflexivity|]. cbn [flat_map app length]. lia. }
      rewrite K in W. replace (Z.of_nat (4 + (4 + 2 * length rules))) with (8 + 2 * Z.of_nat (length rules)) in W by lia.
      destruct W as [W|W]; [|lia]. apply W. replace (8 + 2 * Z.of_nat (length rules)) with ((4 + Z.of_nat (length rules)) * 2) by lia. apply Z.mod_mul. lia.
    + destruct (app_parts _ _ _ _ E ltac:(lia)) as [<- E1]. destruct (app_parts _ _ _ _ E1 ltac:(lia)) as [<- E2]. apply rules_same in E2 as <-.
      eapply (listed _ _ _ _ long); [reflexivity|exact C|exact I|exact NE|lia|lia|exact N].
  - inversion B as [|? ? Ba B1]; subst. inversion B1 as [|? ? Bb B2]; subst. inversion B2 as [|? ? Bd B3]; subst.
    destruct (C96_cvm_results_text (j_cond (c_env c)) a b d short Ba Bb Bd Ns J) as (new & E & I).
    eapply (listed _ _ _ _ short); [reflexivity|exact E|exact I|exact NE|lia|lia|exact N].
  - destruct (F4 v long B Nl) as [A _]. destruct (A ltac:(unfold Zlen; lia)) as (new & E & I). eapply (listed _ _ _ _ long); [unfold Zlen; rewrite L; reflexivity|exact E|exact I|exact NE|lia|lia|exact N].
  - destruct (F5 v long B Nl) as [A _]. destruct (A ltac:(unfold Zlen; lia)) as (new & E & I). eapply (listed _ _ _ _ long); [unfold Zlen; rewrite L; reflexivity|exact E|exact I|exact NE|lia|lia|exact N].
  - destruct (C97_issuer_application_data_partial f v long B L Nl I FI) as (new & E & K).
    { destruct (Z.eq_dec f IAD_CCD) as [->|]; [|left; assumption]. right. destruct (Bool.bool_dec (bit (octet v 6) 6) (bit (octet v 6) 5)); [assumption|exfalso; apply M; auto]. }
    eapply (listed _ _ _ _ long); [unfold Zlen; lia|exact E|exact K|exact NE|lia|lia|exact N].
  - destruct (F7 v long B Nl) as [A _]. destruct (A ltac:(unfold Zlen; lia)) as (new & E & I). eapply (listed _ _ _ _ long); [unfold Zlen; rewrite L; reflexivity|exact E|exact I|exact NE|lia|lia|exact N].
  - destruct (F8 v long B Nl) as [A _]. destruct (A ltac:(unfold Zlen; lia)) as (new & E & I). eapply (listed _ _ _ _ long); [unfold Zlen; rewrite L; reflexivity|exact E|exact I|exact NE|lia|lia|exact N].
  - destruct (C93_form_factor_indicator v long B Nl) as [A _]. destruct (A ltac:(unfold Zlen; lia) R) as (new & E & I). eapply (listed _ _ _ _ long); [unfold Zlen; rewrite L; reflexivity|exact E|exact I|exact NE|lia|lia|exact N].
  - destruct (F9 v long B Nl) as [A _]. destruct (A ltac:(unfold Zlen; lia)) as (new & E & I). eapply (listed _ _ _ _ long); [unfold Zlen; rewrite L; reflexivity|exact E|exact I|exact NE|lia|lia|exact N].
  - destruct (F6 v long B Nl) as [A _]. destruct (A ltac:(unfold Zlen; lia)) as (new & E & I). eapply (listed _ _ _ _ long); [unfold Zlen; rewrite L; reflexivity|exact E|exact I|exact NE|lia|lia|exact N].
Qed.
Lemma decode_fits m v t : bytes v -> described m v t -> ~ In m [MAddlTermCaps; MCvmList; MIad] -> (length (lines t) < array_of m)%nat.
Proof.
  intros B D NI. cbn [In] in NI.
  assert (T : forall tab n, forallb row_clean tab = true -> (table_cap tab <? n)%nat = true -> (length (lines (table_texts tab v)) < n)%nat).
  { intros tab n C Cap. apply Nat.ltb_lt in Cap. pose proof (table_size tab v C). lia. }
  assert (S : forall x cs o, (length (lit (chosen x cs o)) <= Datatypes.S (fold_right (fun c n => Nat.max (size_of (snd c)) n) (size_of o) cs))%nat).
  { intros x cs o. pose proof (chosen_size x cs o) as K. unfold size_of at 1 in K. destruct (String.eqb_spec (chosen x cs o) "") as [E|]; [rewrite E; cbn; lia|lia]. }
  destruct D as [b|v L|v L|x y rules Lx Ly Lr|a b c|v L|v L|f v L I F|v L|v L|v L R|v L|v L]; try (exfalso; tauto); cbn [array_of];
    try (apply T; [vm_compute; reflexivity|vm_compute; reflexivity]).
  - unfold term_type_texts. cbn [lines flat_map]. rewrite !app_length. cbn [length].
    match goal with |- context [chosen (b / 16) ?cs ?o] => pose proof (S (b / 16) cs o) as S1 end. match goal with |- context [chosen (b mod 16) ?cs ?o] => pose proof (S (b mod 16) cs o) as S2 end.
    match type of S1 with (_ <= ?x)%nat => let y := eval vm_compute in x in change x with y in S1 end.
    match type of S2 with (_ <= ?x)%nat => let y := eval vm_compute in x in change x with y in S2 end. lia.
  - inversion B as [|? ? Ba B1]; subst. inversion B1 as [|? ? Bb B2]; subst. inversion B2 as [|? ? Bc B3]; subst. unfold cvm_results_lines. cbn [lines flat_map]. rewrite !app_length. cbn [length].
    assert (C1 : (length (lit (if (a =? 63)%Z then "CVM not performed" else cvm_name a)) <= 100)%nat).
    { destruct (a =? 63); [vm_compute; lia|]. unfold cvm_name. eapply Nat.le_trans; [apply S|]. vm_compute. lia. }
    assert (C2 : (length (cond_words b (lit "X") (lit "Y")) <= 100)%nat).
    { unfold cond_words. destruct ((6 <=? b) && (b <=? 9)).
      - unfold limit_words. rewrite !app_length. destruct (Z.even b), (b <? 8); vm_compute; lia.
      - eapply Nat.le_trans; [apply S|]. vm_compute. lia. }
    assert (C3 : (length (if (c =? 0)%Z then lit "Unknown" else if (c =? 1)%Z then lit "Failed" else if (c =? 2)%Z then lit "Successful" else decimal_text c) <= 100)%nat).
    { destruct (c =? 0); [vm_compute; lia|]. destruct (c =? 1); [vm_compute; lia|]. destruct (c =? 2); [vm_compute; lia|]. unfold is_byte in Bc. pose proof (decimal_text_len c ltac:(lia)). lia. }
    change (length (lit "CVM Performed: ")) with 15%nat. change (length (lit "CVM Condition: ")) with 15%nat. change (length (lit "CVM Result: ")) with 12%nat. lia.
Qed.
Lemma decode_fits_iad f v : In f [IAD_CCD; IAD_VSDC_0; IAD_VSDC_1; IAD_VSDC_3] -> (length (lines (iad_texts f v)) < 2048)%nat.
Proof.
  assert (T : forall tab n, forallb row_clean tab = true -> (table_cap tab <? n)%nat = true -> (length (lines (table_texts tab v)) < n)%nat).
  { intros tab n C Cap. apply Nat.ltb_lt in Cap. pose proof (table_size tab v C). lia. }
  assert (T1 : (length (lines (table_texts T_ccd v)) < 1900)%nat) by (apply T; vm_compute; reflexivity).
  assert (T2 : (length (lines (table_texts T_vsdc_013 v)) < 1900)%nat) by (apply T; vm_compute; reflexivity).
  assert (K : forall s t, lines (s :: t) = s ++ [10] ++ lines t) by (intros s t; unfold lines; cbn [flat_map]; rewrite <- app_assoc; reflexivity).
  cbn [In]. intros [<-|[<-|[<-|[<-|[]]]]]; unfold iad_texts;
    match goal with |- context [if ?a =? ?b then _ else _] => idtac end;
    repeat match goal with |- context [if ?a =? ?b then _ else _] => let r := eval vm_compute in (a =? b) in change (a =? b) with r; cbv iota end;
    rewrite !K, !app_length; cbn [length];
    repeat match goal with |- context [length (lit ?s)] => let n := eval vm_compute in (length (lit s)) in change (length (lit s)) with n end;
    repeat match goal with |- context [length (decimal_text ?s)] => let n := eval vm_compute in (length (decimal_text s)) in change (length (decimal_text s)) with n end; lia.
Qed.
(** ** Wrong sizes *)
Lemma complains_some t : exists e, complains t = Ret ([], e) /\ e <> [].
Proof. eexists. split; [reflexivity|]. intros H. apply app_eq_nil in H as [_ H]. discriminate. Qed.
Lemma refused ok wrong call failed : ok = false -> exists e, list_mode ok wrong call failed = Ret ([], e) /\ e <> [].
Proof. intros ->. apply complains_some. Qed.
Lemma cvm_wrong junk l str : Zlen l mod 2 <> 0 \/ Zlen l < 10 \/ 252 < Zlen l -> exists r, r <> 0 /\ cvm_list_list junk l str = Ret (r, str).
Proof.
  intros W. unfold cvm_list_list. destruct ((Zlen l =? 0) || (Zlen str =? 0)) eqn:E0; [exists (-1); split; [lia|reflexivity]|]. apply orb_false_elim in E0 as [E0 _].
  unfold cvmlist_itr_init. rewrite E0. change 1 with (Z.ones 1) at 1 2. rewrite !Z.land_ones by lia. change (2 ^ 1) with 2.
  destruct (Z.eqb_spec (Zlen l mod 2) 0) as [M|M]; cbn [negb]; [|exists 1; split; [lia|reflexivity]].
  destruct (Z.ltb_spec (Zlen l) 10); [exists 2; split; [lia|reflexivity]|].
  destruct (Z.land (Zlen l - 8) 1 =? 0); cbn [negb]; [|exists 3; split; [lia|reflexivity]].
  destruct (Z.gtb_spec (Zlen l) 252); [exists 4; split; [lia|reflexivity]|]. exfalso. lia.
Qed.
Lemma decode_refused c short long beyond pad m v arg : bytes v -> long <> [] -> length (j_cond (c_env c)) = 128%nat -> wrong_size m (Zlen v) ->
  exists e, decode c short long beyond pad m v arg = Ret ([], e) /\ e <> [].
Proof.
  intros B Nl J [(k & I & N)|[[-> N]|[[-> N]|[[-> N]|[-> N]]]]].
  - unfold field_sizes in I. cbn [In] in I.
    repeat destruct I as [I|I]; try contradiction; injection I as <- <-; cbn [decode];
      first [apply refused; apply Z.eqb_neq; exact N|destruct (Z.eqb_spec (Zlen v) 2); [contradiction|apply complains_some]|destruct (Z.eqb_spec (Zlen v) 1); [contradiction|apply complains_some]].
  - cbn [decode]. destruct (Z.ltb_spec (Zlen v) 2); [apply complains_some|]. destruct (Z.ltb_spec 33 (Zlen v)); [apply complains_some|]. exfalso. lia.
  - apply refused. lia.
  - apply refused. lia.
  - cbn [decode]. unfold list_mode. cbn [negb]. destruct (cvm_wrong (j_cond (c_env c)) v long N) as (r & R & ->). cbn [bind].
    destruct (Z.eqb_spec r 0); [contradiction|]. apply complains_some.
Qed.

(** ** The command line *)
Lemma parse_app junk l1 : forall s l2, parse_arguments junk s (l1 ++ l2) =
  (let* y := parse_arguments junk s l1 in match y with Next s => parse_arguments junk s l2 | Usage t => Ret (Usage t) end).
Proof.
  induction l1 as [|x l1 IH]; intros s l2; [reflexivity|]. cbn [app parse_arguments]. destruct (parse_argument junk s x) as [[s'|t]| |]; cbn [bind]; [apply IH|reflexivity..].
Qed.
Lemma parse_options junk opts : forall s, parse_arguments junk s (map AOption opts) =
  match s_mode s, modes opts with
  | None, [] => Ret (Next (mkState None (s_data s) (s_arg s) (s_pad s || ignores opts) (s_stdin s)))
  | None, [m] => Ret (Next (mkState (Some m) (s_data s) (s_arg s) (s_pad s || ignores opts) (s_stdin s)))
  | Some m, [] => Ret (Next (mkState (Some m) (s_data s) (s_arg s) (s_pad s || ignores opts) (s_stdin s)))
  | _, _ => Ret (Usage "Only one decoding OPTION may be specified")
  end.
Proof.
  induction opts as [|o opts IH]; intros [m d a p i]; cbn [map parse_arguments parse_argument s_mode s_data s_arg s_pad s_stdin]; [rewrite orb_false_r; destruct m; reflexivity|].
  destruct o as [m'|]; cbn [modes flat_map app ignores existsb].
  - destruct m as [m|]; cbn [bind].
    + fold (modes opts). destruct (modes opts); reflexivity.
    + rewrite IH. cbn [s_mode s_data s_arg s_pad s_stdin]. fold (modes opts). fold (ignores opts). destruct (modes opts); reflexivity.
  - cbn [bind]. rewrite IH. cbn [s_mode s_data s_arg s_pad s_stdin]. fold (modes opts). fold (ignores opts). rewrite orb_true_r. cbn [orb]. reflexivity.
Qed.

Lemma hex_size text bs : hex_of text bs -> (2 * length bs <= length text)%nat.
Proof. induction 1; [cbn; lia|]. rewrite app_length. cbn [length]. rewrite app_length. cbn [length]. lia. Qed.
Lemma emv_decode_options c short long beyond junk stdin opts args m : modes opts = [m] ->
  emv_decode c short long beyond junk stdin opts args =
  (let* x := parse_arguments junk (mkState (Some m) [] [] (ignores opts) stdin) (match args with [] => [ANone] | _ => map AInput args end) in
   match x with
   | Usage t => Ret (Refused t)
   | Next s => match s_mode s with None => Ret Help | Some m => let* (a, b) := decode c short long beyond (s_pad s) m (s_data s) (s_arg s) in Ret (Printed a b) end
   end).
Proof. intros M. unfold emv_decode, arguments. rewrite parse_app, parse_options, M. cbn [s_mode bind s_data s_arg s_pad s_stdin orb]. reflexivity. Qed.
Lemma input_hex c short long beyond junk stdin opts m text bs : modes opts = [m] -> is_lookup (Some m) = false -> (forall n, length (junk n) = n) -> nz text -> hex_of text bs -> bs <> [] ->
  emv_decode c short long beyond junk stdin opts [text] = (let* (a, b) := decode c short long beyond (ignores opts) m bs [] in Ret (Printed a b)).
Proof.
  intros M NL J N H NE. rewrite (emv_decode_options _ _ _ _ _ _ _ _ m M). pose proof (hex_size _ _ H) as S. destruct bs as [|b0 bs]; [contradiction|]. cbn [length] in S.
  cbn [map parse_arguments parse_argument s_mode s_data s_arg s_pad s_stdin]. rewrite NL. destruct (Nat.eqb_spec (length text) 1); [lia|]. cbn [andb]. destruct (Nat.ltb_spec (length text) 2); [lia|].
  rewrite (C60_hex_round_trip text (b0 :: bs) _ N H (J _)). cbn [bind]. change (0 <? 0) with false. cbv iota. cbn [bind s_mode s_data s_arg s_pad]. rewrite firstn_length_app. reflexivity.
Qed.
Lemma input_lookup c short long beyond junk stdin opts m arg : modes opts = [m] -> is_lookup (Some m) = true ->
  emv_decode c short long beyond junk stdin opts [arg] = (let* (a, b) := decode c short long beyond (ignores opts) m [] arg in Ret (Printed a b)).
Proof.
  intros M L. rewrite (emv_decode_options _ _ _ _ _ _ _ _ m M). cbn [map parse_arguments parse_argument s_mode s_data s_arg s_pad s_stdin]. rewrite L. cbn [bind s_mode s_data s_arg s_pad]. reflexivity.
Qed.
Lemma input_stdin c short long beyond junk opts m d : modes opts = [m] -> is_lookup (Some m) = false -> d <> [] ->
  emv_decode c short long beyond junk (Some d) opts [[0x2D]] = (let* (a, b) := decode c short long beyond (ignores opts) m d [] in Ret (Printed a b)).
Proof.
  intros M NL NE. rewrite (emv_decode_options _ _ _ _ _ _ _ _ m M). cbn [map parse_arguments parse_argument s_mode s_data s_arg s_pad s_stdin]. rewrite NL.
  cbn [length Nat.eqb hd andb]. change (0x2D =? 0x2D) with true. cbv iota. destruct d as [|x d]; [contradiction|]. cbn [bind s_mode s_data s_arg s_pad]. reflexivity.
Qed.
Lemma input_bad c short long beyond junk stdin opts m text : modes opts = [m] -> is_lookup (Some m) = false -> (forall n, length (junk n) = n) -> nz text -> text <> [0x2D] ->
  (forall bs, hex_of text bs -> bs = []) -> exists t, emv_decode c short long beyond junk stdin opts [text] = Ret (Refused t).
Proof.
  intros M NL J N ND H. rewrite (emv_decode_options _ _ _ _ _ _ _ _ m M). cbn [map parse_arguments parse_argument s_mode s_data s_arg s_pad s_stdin]. rewrite NL.
  destruct ((length text =? 1)%nat && (hd 0 text =? 45)) eqn:E.
  - exfalso. apply andb_prop in E as [E1 E2]. apply Nat.eqb_eq in E1. apply Z.eqb_eq in E2. destruct text as [|x [|? ?]]; try discriminate E1. cbn [hd] in E2. subst x. contradiction.
  - destruct (Nat.ltb_spec (length text) 2); [cbn [bind]; eauto|].
    destruct (C87_hex_refused_partial text (junk ((length text + 1) / 2)%nat) N (J _)) as (r & buf & n & E1 & _ & R1 & R2). rewrite E1. cbn [bind].
    destruct (Z.ltb_spec r 0); [cbn [bind]; eauto|]. destruct (Z.ltb_spec 0 r); [cbn [bind]; eauto|]. exfalso. assert (r = 0) by lia. subst r.
    pose proof (C60_hex_accepted text _ _ _ N (J _) E1) as A. pose proof (H _ A) as Z0. rewrite Z0 in A. inversion A as [Q|sp1 a va sp2 b vb tx bs0 q1 q2 q3 q4 q5 Q1 Q2]. subst text. cbn [length] in *. lia.
Qed.
Lemma input_several c short long beyond junk stdin opts args : (2 <= length (modes opts))%nat -> exists t, emv_decode c short long beyond junk stdin opts args = Ret (Refused t).
Proof.
  intros L. unfold emv_decode, arguments. rewrite parse_app, parse_options. cbn [s_mode]. destruct (modes opts) as [|m1 [|m2 l]]; cbn [length] in L; try lia. cbn [bind]. eauto.
Qed.
Lemma input_none c short long beyond junk stdin opts : exists t, emv_decode c short long beyond junk stdin opts [] = Ret (Refused t).
Proof.
  unfold emv_decode, arguments. rewrite parse_app, parse_options. cbn [s_mode]. destruct (modes opts) as [|m1 [|m2 l]]; cbn [bind parse_arguments parse_argument]; eauto.
Qed.
