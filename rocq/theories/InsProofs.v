(** Names of commands in descriptions. *)
From Coq Require Import String.
From Verif Require Import Base BaseLemmas TlvSpec TtlModel StrModel StrSpec CapduModel CapduSpec CapduProofs InsSpec.
Open Scope Z_scope.
Open Scope list_scope.

(** ** Names of commands *)
Definition says (pre str : list Z) (m : out (bool * list Z)) : Prop :=
  forall new, m = Ret (true, new) -> exists s, begins_with pre s /\ shown str new s.
Lemma says_false pre str x : says pre str (Ret (false, x)). Proof. intros new E. discriminate. Qed.
Lemma says_UB pre str : says pre str UB. Proof. intros new E. discriminate. Qed.
Lemma says_bind {A} pre str (m : out A) k : (forall a, m = Ret a -> says pre str (k a)) -> says pre str (bind m k).
Proof. intros H new E. destruct m as [a| |]; cbn [bind] in E; try discriminate. exact (H a eq_refl new E). Qed.
Lemma says_rd pre str c i k : bytes c -> (forall b, is_byte b -> says pre str (k b)) -> says pre str (let* b := rd c i in k b).
Proof.
  intros B H. apply says_bind. intros b E. apply H. unfold rd in E. destruct (nth_error c i) as [x|] eqn:N; [|discriminate]. injection E as <-.
  unfold bytes in B. rewrite Forall_forall in B. apply B. eapply nth_error_In; exact N.
Qed.
Lemma says_say pre t r : nz pre -> nz r -> says pre (0 :: t) (say (0 :: t) (pre ++ r)).
Proof.
  intros Np Nr new E. exists (pre ++ r). split; [exists r; reflexivity|].
  destruct (say_shown (0 :: t) (pre ++ r) ltac:(discriminate) (nz_app _ _ Np Nr)) as (new' & E' & S). rewrite E in E'. injection E' as <-. exact S.
Qed.
Lemma p_s_nz a : forall s, p_s a = Ret s -> nz s.
Proof.
  induction a as [|c a IH]; intros s E; cbn [p_s] in E; [discriminate|]. destruct (Z.eqb_spec c 0) as [->|N]; [injection E as <-; constructor|].
  destruct (p_s a) as [s'| |]; cbn [bind] in E; try discriminate. injection E as <-. constructor; [exact N|apply IH; reflexivity].
Qed.
Lemma lit_split a b s : lit s = a ++ b -> lit s = a ++ b. Proof. auto. Qed.
Lemma select_says c t junk : bytes c -> says (lit "SELECT") (0 :: t) (capdu_select c (0 :: t) junk).
Proof.
  intros B. assert (SF : says (lit "SELECT") (0 :: t) (select_file c (0 :: t) junk)).
  { unfold select_file. apply says_rd; [exact B|]. intros lc _. apply says_bind. intros data _. apply says_bind. intros id _.
    apply says_rd; [exact B|]. intros p2 _. apply says_bind. intros id' E.
    change (lit "SELECT ") with (lit "SELECT" ++ lit " "). rewrite <- app_assoc. apply says_say; [litnz|]. apply nz_app; [litnz|]. apply nz_app; [apply occurrence_nz|].
    apply nz_app; [litnz|]. exact (p_s_nz _ _ E). }
  assert (MF : says (lit "SELECT") (0 :: t) (say (0 :: t) (lit "SELECT Master File"))).
  { change (lit "SELECT Master File") with (lit "SELECT" ++ lit " Master File"). apply says_say; litnz. }
  unfold capdu_select. apply says_rd; [exact B|]. intros c0 _. destruct (negb _); [apply says_false|].
  apply says_rd; [exact B|]. intros c1 _. destruct (negb _); [apply says_false|]. apply says_bind. intros cs _. destruct (negb _); [apply says_false|].
  apply says_rd; [exact B|]. intros p1 _. apply says_bind. intros p2 _. destruct (_ && _).
  - destruct (cs =? CASE_2S); [exact MF|]. apply says_rd; [exact B|]. intros lc _. apply says_bind. intros mf _. destruct mf; [exact MF|exact SF].
  - destruct (cs =? CASE_2S); [apply says_false|exact SF].
Qed.
Lemma read_record_says c t : bytes c -> says (lit "READ RECORD") (0 :: t) (capdu_read_record c (0 :: t)).
Proof.
  intros B. unfold capdu_read_record. apply says_rd; [exact B|]. intros c0 _. destruct (negb _); [apply says_false|].
  apply says_rd; [exact B|]. intros ins _. destruct (negb _); [apply says_false|]. apply says_bind. intros cs _. destruct (negb _); [apply says_false|].
  apply says_rd; [exact B|]. intros p1 B1. apply says_rd; [exact B|]. intros p2 B2. destruct (p1 =? 255); [apply says_false|].
  rewrite (shiftr3 p2 B2). assert (Q : nz (p_u (p2 / 8))) by (apply nz_u; unfold is_byte in B2; lia).
  assert (P : nz (p_u p1)) by (apply nz_u; unfold is_byte in B1; lia).
  set (record := if p1 =? 0 then _ else _). assert (R : nz record).
  { unfold record. destruct (p1 =? 0); [litnz|]. destruct (negb _); apply nz_app; try litnz; exact P. }
  change (lit "READ RECORD from short EF ") with (lit "READ RECORD" ++ lit " from short EF ").
  clearbody record. repeat match goal with |- says _ _ (if ?b then _ else _) => destruct b end; try apply says_false; rewrite <- !app_assoc; apply says_say; try litnz;
    repeat (apply nz_app; [first [litnz|exact Q|exact R|apply occurrence_nz]|]); first [exact R|litnz].
Qed.
Lemma put_data_says c t : bytes c -> says (lit "PUT DATA") (0 :: t) (capdu_put_data c (0 :: t)).
Proof.
  intros B. unfold capdu_put_data. assert (PD : says (lit "PUT DATA") (0 :: t) (say (0 :: t) (lit "PUT DATA"))).
  { rewrite <- (app_nil_r (lit "PUT DATA")) at 2. apply says_say; [litnz|constructor]. }
  apply says_rd; [exact B|]. intros c0 _. destruct (negb _); [apply says_false|].
  apply says_rd; [exact B|]. intros ins _. destruct (negb _); [apply says_false|]. apply says_bind. intros cs _. destruct (cs =? CASE_3E); [exact PD|].
  destruct (negb _); [apply says_false|]. apply says_rd; [exact B|]. intros p1 B1. apply says_rd; [exact B|]. intros p2 B2. apply says_rd; [exact B|]. intros lc _.
  pose proof (nz_02X p1 B1) as N1. pose proof (nz_02X p2 B2) as N2. assert (U2 : nz (p_u p2)) by (apply nz_u; unfold is_byte in B2; lia).
  change (lit "PUT DATA for BER-TLV field ") with (lit "PUT DATA" ++ lit " for BER-TLV field ").
  change (lit "PUT DATA for proprietary identifier ") with (lit "PUT DATA" ++ lit " for proprietary identifier ").
  change (lit "PUT DATA for SIMPLE-TLV field ") with (lit "PUT DATA" ++ lit " for SIMPLE-TLV field ").
  change (lit "PUT DATA for short EF ") with (lit "PUT DATA" ++ lit " for short EF ").
  change (lit "PUT DATA for current DF") with (lit "PUT DATA" ++ lit " for current DF").
  change (lit "PUT DATA for current EF") with (lit "PUT DATA" ++ lit " for current EF").
  change (lit "PUT DATA for file ") with (lit "PUT DATA" ++ lit " for file ").
  repeat match goal with |- says _ _ (if ?b then _ else _) => destruct b end; try exact PD; rewrite <- ?app_assoc; apply says_say; try litnz;
    repeat (apply nz_app; [first [litnz|assumption]|]); assumption.
Qed.
(** The table of the code against the one of the standard. *)
Definition named_in (t : list (string * list Z)) (ins : Z) (s : string) : bool :=
  existsb (fun e => String.eqb (fst e) s && existsb (Z.eqb ins) (snd e)) t.
Lemma named_in_ok t ins s : named_in t ins s = true -> exists codes, In ins codes /\ In (s, codes) t.
Proof.
  intros H. apply existsb_exists in H as ((n & codes) & I & E). cbn [fst snd] in E. apply Bool.andb_true_iff in E as (En & Ec).
  apply String.eqb_eq in En. subst n. apply existsb_exists in Ec as (x & Ix & Ex). apply Z.eqb_eq in Ex. subst x. exists codes. auto.
Qed.
Lemma lookup_named t u ins s : forallb (fun e => named_in u (fst e) (snd e)) t = true -> lookup ins t = Some s -> exists codes, In ins codes /\ In (s, codes) u.
Proof.
  intros F H. unfold lookup in H. destruct (find _ t) as [e|] eqn:E; [|discriminate]. injection H as <-. apply find_some in E as (I & Q).
  apply Z.eqb_eq in Q. rewrite forallb_forall in F. rewrite <- Q. apply named_in_ok. exact (F e I).
Qed.
Lemma iso_says c0 c1 r t junk : bytes (c0 :: c1 :: r) -> c0 < 128 -> forall new, iso_capdu_get_string (c0 :: c1 :: r) (0 :: t) junk = Ret (true, new) ->
  exists name s, command_name c0 c1 name /\ begins_with (lit name) s /\ shown (0 :: t) new s.
Proof.
  intros B L new E. assert (B0 : is_byte c0) by (exact (Forall_inv B)). unfold iso_capdu_get_string in E. cbn [Datatypes.length Nat.eqb orb wr upd Nat.ltb Nat.leb bind] in E.
  destruct (Datatypes.length t <=? 2)%nat eqn:Q; [discriminate|]. cbn [rd nth_error bind] in E. destruct (Z.eqb_spec c0 255); [discriminate|].
  rewrite inter in E by exact B0. destruct (Z.ltb_spec c0 128) as [_|?]; [|lia].
  assert (NI : forall name, named_in iso_commands c1 name = true -> command_name c0 c1 name).
  { intros name H. unfold command_name. destruct (Z.ltb_spec c0 128); [|lia]. destruct (named_in_ok _ _ _ H) as (codes & I1 & I2). exists codes. auto. }
  destruct (Z.eqb_spec c1 164) as [->|_].
  { destruct (select_says _ t junk B new E) as (s & Bs & Sh). exists "SELECT"%string, s. split; [apply NI; vm_compute; reflexivity|auto]. }
  destruct (Z.eqb_spec c1 178) as [->|_]; [|destruct (Z.eqb_spec c1 179) as [->|_]]; cbn [orb] in E;
    [destruct (read_record_says _ t B new E) as (s & Bs & Sh); exists "READ RECORD"%string, s; split; [apply NI; vm_compute; reflexivity|auto]..|].
  destruct (Z.eqb_spec c1 218) as [->|_]; [|destruct (Z.eqb_spec c1 219) as [->|_]]; cbn [orb] in E;
    [destruct (put_data_says _ t B new E) as (s & Bs & Sh); exists "PUT DATA"%string, s; split; [apply NI; vm_compute; reflexivity|auto]..|].
  destruct (lookup c1 iso_ins) as [s|] eqn:K; [|discriminate].
  destruct (say_n_shown (0 :: t) (lit s) ltac:(discriminate)) as (new' & E' & Sh); [apply (ins_nz iso_ins c1); [vm_compute; reflexivity|exact K]|].
  rewrite E' in E. cbn [bind] in E. injection E as <-. exists s, (lit s). split.
  - unfold command_name. destruct (Z.ltb_spec c0 128); [|lia]. apply (lookup_named iso_ins); [vm_compute; reflexivity|exact K].
  - split; [exists []; rewrite app_nil_r; reflexivity|exact Sh].
Qed.
Lemma emv_says c0 c1 r str junk new : bytes (c0 :: c1 :: r) -> str <> [] -> emv_capdu_get_string (c0 :: c1 :: r) str junk = Ret (0, new) ->
  exists name s, command_name c0 c1 name /\ begins_with (lit name) s /\ shown str new s.
Proof.
  intros B NE E. assert (B0 : is_byte c0) by (exact (Forall_inv B)). unfold emv_capdu_get_string in E. cbn [Datatypes.length Nat.eqb] in E.
  destruct (Nat.eqb_spec (Datatypes.length str) 0); [destruct str; [contradiction|discriminate]|].
  destruct (wr0 str NE) as (t & W & Lt). rewrite W in E. cbn [bind] in E. destruct (_ <? 4)%nat; [discriminate|]. cbn [rd nth_error bind] in E.
  rewrite inter in E by exact B0. destruct (Z.eqb_spec c0 255) as [|N255]; [discriminate|]. destruct (Z.ltb_spec c0 128) as [L|L]; cbn [negb] in E.
  - destruct (iso_capdu_get_string (c0 :: c1 :: r) (0 :: t) junk) as [[[|] n1]| |] eqn:I; cbn [bind] in E; try discriminate.
    + injection E as <-. destruct (iso_says _ _ _ _ _ B L _ I) as (name & s & C & Bs & Sh). exists name, s. split; [exact C|]. split; [exact Bs|].
      exact (shown_same _ _ _ _ Lt Sh).
    + destruct (wr n1 0 0); discriminate.
  - assert (CN : forall name, named_in emv_commands c1 name = true -> command_name c0 c1 name).
    { intros name H. unfold command_name. destruct (Z.ltb_spec c0 128); [lia|]. destruct (Z.ltb_spec c0 255); [|unfold is_byte in B0; lia].
      destruct (named_in_ok _ _ _ H) as (codes & I1 & I2). exists codes. auto. }
    destruct (Z.eqb_spec c1 202) as [->|_].
    + destruct r as [|p1 [|p2 r]]; try discriminate. cbn [rd nth_error bind] in E.
      apply Forall_inv_tail, Forall_inv_tail in B. assert (B1 := Forall_inv B). assert (B2 := Forall_inv (Forall_inv_tail B)).
      destruct (snprintf_shown (0 :: t) (lit "GET DATA field " ++ p_02X p1 ++ p_02X p2) ltac:(discriminate)) as (new' & E' & Sh).
      { apply nz_app; [litnz|]. apply nz_app; apply nz_02X; assumption. }
      rewrite E' in E. cbn [bind] in E. injection E as <-. exists "GET DATA"%string. eexists. split; [apply CN; vm_compute; reflexivity|].
      split; [|exact (shown_same _ _ _ _ Lt Sh)]. exists (lit " field " ++ p_02X p1 ++ p_02X p2). reflexivity.
    + destruct (lookup c1 emv_ins) as [s|] eqn:K; [|discriminate].
      destruct (say_n_shown (0 :: t) (lit s) ltac:(discriminate)) as (new' & E' & Sh); [apply (ins_nz emv_ins c1); [vm_compute; reflexivity|exact K]|].
      rewrite E' in E. cbn [bind] in E. injection E as <-. exists s, (lit s). split; [|split; [exists []; rewrite app_nil_r; reflexivity|exact (shown_same _ _ _ _ Lt Sh)]].
      unfold command_name. destruct (Z.ltb_spec c0 128); [lia|]. destruct (Z.ltb_spec c0 255); [|unfold is_byte in B0; lia].
      apply (lookup_named emv_ins); [vm_compute; reflexivity|exact K].
Qed.

(** Every command of the tables but SELECT, READ RECORD and PUT DATA has its name as text. *)
Definition own_text (name : string) : bool := existsb (String.eqb name) ["SELECT"; "READ RECORD"; "PUT DATA"]%string.
Definition by_lookup (t : list (Z * string)) (u : list (string * list Z)) (skip : string -> bool) : bool :=
  forallb (fun e => skip (fst e) || forallb (fun i => match lookup i t with Some s => String.eqb s (fst e) | None => false end) (snd e)) u.
Lemma by_lookup_ok t u skip name codes ins : by_lookup t u skip = true -> skip name = false -> In ins codes -> In (name, codes) u -> lookup ins t = Some name.
Proof.
  intros F S I1 I2. unfold by_lookup in F. rewrite forallb_forall in F. specialize (F _ I2). cbn [fst snd] in F. rewrite S in F. cbn [orb] in F.
  rewrite forallb_forall in F. specialize (F _ I1). cbv beta in F. destruct (lookup ins t) as [s|]; [|discriminate]. apply String.eqb_eq in F. subst s. reflexivity.
Qed.
Definition not_in (ins : Z) (u : list (string * list Z)) (skip : string -> bool) : bool :=
  forallb (fun e => skip (fst e) || negb (existsb (Z.eqb ins) (snd e))) u.
Lemma not_in_ok ins u skip name codes : not_in ins u skip = true -> skip name = false -> In (name, codes) u -> ~ In ins codes.
Proof.
  intros F S I2 I1. unfold not_in in F. rewrite forallb_forall in F. specialize (F _ I2). cbn [fst snd] in F. rewrite S in F. cbn [orb] in F.
  apply Bool.negb_true_iff in F. assert (existsb (Z.eqb ins) codes = true) by (apply existsb_exists; exists ins; split; [exact I1|apply Z.eqb_refl]). congruence.
Qed.
Lemma named_text cla ins name r str junk : is_byte cla -> command_name cla ins name -> own_text name = false -> (4 <= List.length str)%nat ->
  ~ (128 <= cla /\ ins = 0xCA) ->
  exists new, emv_capdu_get_string (cla :: ins :: r) str junk = Ret (0, new) /\ shown str new (lit name).
Proof.
  intros B (codes & I1 & I2) O L NG. destruct (Z.ltb_spec cla 128) as [I|I].
  - destruct (emv_frame cla ins r str junk B I L) as (t & Lt & ->). destruct (iso_frame cla ins r (0 :: t) junk B I) as (t' & Lt' & ->); [rewrite Lt; exact L|].
    assert (K : lookup ins iso_ins = Some name) by (apply (by_lookup_ok _ iso_commands own_text name codes); [vm_compute; reflexivity|exact O|exact I1|exact I2]).
    assert (NI : forall i, not_in i iso_commands own_text = true -> ins <> i).
    { intros i H ->. exact (not_in_ok i iso_commands own_text name codes H O I2 I1). }
    cbv zeta. destruct (Z.eqb_spec ins 164) as [X|_]; [exfalso; revert X; apply NI; vm_compute; reflexivity|].
    destruct (Z.eqb_spec ins 178) as [X|_]; [exfalso; revert X; apply NI; vm_compute; reflexivity|].
    destruct (Z.eqb_spec ins 179) as [X|_]; [exfalso; revert X; apply NI; vm_compute; reflexivity|].
    destruct (Z.eqb_spec ins 218) as [X|_]; [exfalso; revert X; apply NI; vm_compute; reflexivity|].
    destruct (Z.eqb_spec ins 219) as [X|_]; [exfalso; revert X; apply NI; vm_compute; reflexivity|]. cbn [orb]. rewrite K.
    destruct (say_n_shown (0 :: t') (lit name) ltac:(discriminate)) as (new & E & Sh); [apply (ins_nz iso_ins ins); [vm_compute; reflexivity|exact K]|].
    rewrite E. cbn [bind]. exists new. split; [reflexivity|]. apply (shown_same str (0 :: t')); [congruence|exact Sh].
  - destruct (Z.ltb_spec cla 255) as [I'|I']; [|contradiction I2]. unfold emv_capdu_get_string. cbn [Datatypes.length Nat.eqb].
    destruct (Nat.eqb_spec (Datatypes.length str) 0); [lia|].
    destruct (wr0 str) as (t & W & Lt); [destruct str; [cbn [Datatypes.length] in L; lia|discriminate]|]. rewrite W. cbn [bind].
    destruct (Nat.ltb_spec (Datatypes.length (0 :: t)) 4); [lia|]. cbn [rd nth_error bind]. rewrite inter by exact B.
    destruct (Z.eqb_spec cla 255); [lia|]. destruct (Z.ltb_spec cla 128); [lia|]. cbn [negb].
    destruct (Z.eqb_spec ins 202) as [X|_]; [exfalso; apply NG; auto|].
    assert (NG' : name <> "GET DATA"%string).
    { intros ->. apply NG. split; [exact I|]. destruct I2 as [Q|[Q|[Q|[Q|[Q|[Q|[Q|[]]]]]]]]; injection Q; try discriminate. intros <-. destruct I1 as [<-|[]]; reflexivity. }
    assert (K : lookup ins emv_ins = Some name).
    { apply (by_lookup_ok _ emv_commands (String.eqb "GET DATA") name codes); [vm_compute; reflexivity| |exact I1|exact I2].
      apply String.eqb_neq. congruence. }
    rewrite K. destruct (say_n_shown (0 :: t) (lit name) ltac:(discriminate)) as (new & E & Sh); [apply (ins_nz emv_ins ins); [vm_compute; reflexivity|exact K]|].
    rewrite E. cbn [bind]. exists new. split; [reflexivity|]. apply (shown_same str (0 :: t)); [exact Lt|exact Sh].
Qed.
Lemma hex1 a : is_byte a -> p_02X a = hex_text [a].
Proof. intros B. rewrite <- (hex_02X [a]); [cbn [flat_map]; rewrite app_nil_r; reflexivity|constructor; [exact B|constructor]]. Qed.
Lemma hex2 a b : is_byte a -> is_byte b -> p_02X a ++ p_02X b = hex_text [a; b].
Proof. intros A B. rewrite <- (hex_02X [a; b]); [cbn [flat_map]; rewrite app_nil_r; reflexivity|constructor; [exact A|constructor; [exact B|constructor]]]. Qed.
Lemma get_data_text cla p1 p2 r str junk : 128 <= cla < 255 -> is_byte p1 -> is_byte p2 -> (4 <= List.length str)%nat ->
  exists new, emv_capdu_get_string (cla :: 0xCA :: p1 :: p2 :: r) str junk = Ret (0, new) /\ shown str new (lit "GET DATA field " ++ hex_text [p1; p2]).
Proof.
  intros I B1 B2 L. unfold emv_capdu_get_string. cbn [Datatypes.length Nat.eqb]. destruct (Nat.eqb_spec (Datatypes.length str) 0); [lia|].
  destruct (wr0 str) as (t & W & Lt); [destruct str; [cbn [Datatypes.length] in L; lia|discriminate]|]. rewrite W. cbn [bind].
  destruct (Nat.ltb_spec (Datatypes.length (0 :: t)) 4); [lia|]. cbn [rd nth_error bind]. rewrite inter by (unfold is_byte; lia).
  destruct (Z.eqb_spec cla 255); [lia|]. destruct (Z.ltb_spec cla 128); [lia|]. cbn [negb Z.eqb Pos.eqb].
  destruct (snprintf_shown (0 :: t) (lit "GET DATA field " ++ p_02X p1 ++ p_02X p2) ltac:(discriminate)) as (new & E & Sh).
  { apply nz_app; [litnz|]. apply nz_app; apply nz_02X; assumption. }
  rewrite E. cbn [bind]. exists new. split; [reflexivity|]. rewrite <- (hex2 p1 p2 B1 B2). apply (shown_same str (0 :: t)); [exact Lt|exact Sh].
Qed.

(** PUT DATA *)
Lemma put_text_of (P : list Z -> Prop) t s0 : (exists new, say (0 :: t) s0 = Ret (true, new) /\ shown (0 :: t) new s0) -> P s0 ->
  exists new s, say (0 :: t) s0 = Ret (true, new) /\ shown (0 :: t) new s /\ P s.
Proof. intros (new & E & S) H. exists new, s0. auto. Qed.
Lemma low5 p : is_byte p -> (Z.land p 0xE0 =? 0) = (p <? 32).
Proof. intros B. apply Bool.eqb_prop. revert p B. apply (byte_sweep (fun p => Bool.eqb (Z.land p 0xE0 =? 0) (p <? 32))). vm_compute; reflexivity. Qed.
Lemma put_data_exact cla ins p1 p2 data str junk : 0 <= cla < 128 -> ins = 0xDA \/ ins = 0xDB -> is_byte p1 -> is_byte p2 -> bytes data ->
  1 <= Zlen data <= 255 -> (4 <= List.length str)%nat ->
  exists new s, iso_capdu_get_string ([cla; ins; p1; p2] ++ [Zlen data] ++ data) str junk = Ret (true, new) /\ shown str new s /\
    put_text (if ins =? 0xDA then put_even p1 p2 else put_odd p1 p2) s.
Proof.
  intros I In B1 B2 Bd Ld Ls. destruct (iso_frame cla ins ([p1; p2] ++ [Zlen data] ++ data) str junk) as (t & Lt & E); [unfold is_byte; lia|lia|exact Ls|].
  cbn [app] in E |- *. rewrite E. cbv zeta. clear E.
  enough (H : exists new s, capdu_put_data (cla :: ins :: p1 :: p2 :: Zlen data :: data) (0 :: t) = Ret (true, new) /\ shown (0 :: t) new s /\
    put_text (if ins =? 0xDA then put_even p1 p2 else put_odd p1 p2) s).
  { destruct H as (new & s & E & Sh & P). exists new, s.
    assert (F : (ins =? 164) = false /\ (ins =? 178) || (ins =? 179) = false /\ (ins =? 218) || (ins =? 219) = true) by (destruct In as [->| ->]; auto).
    destruct F as (-> & -> & ->). split; [exact E|]. split; [apply (shown_same str (0 :: t)); [exact Lt|exact Sh]|exact P]. }
  unfold capdu_put_data. cbn [rd nth_error bind]. rewrite inter by (unfold is_byte; lia). destruct (Z.ltb_spec cla 128); [|lia]. cbn [negb].
  assert (CS : apdu_case (cla :: ins :: p1 :: p2 :: Zlen data :: data) = Ret CASE_3S).
  { unfold apdu_case. replace (Zlen (cla :: ins :: p1 :: p2 :: Zlen data :: data)) with (5 + Zlen data) by (unfold Zlen; cbn [Datatypes.length]; lia).
    destruct (Z.ltb_spec (5 + Zlen data) 4); [lia|]. destruct (Z.eqb_spec (5 + Zlen data) 4); [lia|]. destruct (Z.eqb_spec (5 + Zlen data) 5); [lia|].
    cbn [rd nth_error bind]. destruct (Z.eqb_spec (Zlen data) 0); [lia|]. cbn [negb]. rewrite Z.eqb_refl. reflexivity. }
  replace (negb ((ins =? 218) || (ins =? 219))) with false by (destruct In as [->| ->]; reflexivity). rewrite CS. cbn [bind].
  change (CASE_3S =? CASE_3E) with false. change (negb (CASE_3S =? CASE_3S)) with false. cbv iota.
  pose proof (nz_02X p1 B1) as N1. pose proof (nz_02X p2 B2) as N2. assert (U2 : nz (p_u p2)) by (apply nz_u; unfold is_byte in B2; lia).
  pose proof (low5 p2 B2) as E5.
  assert (E1 : p2 < 32 -> Z.land p2 0x1F = p2).
  { intros HH. change 31 with (Z.ones 5). rewrite Z.land_ones by lia. apply Z.mod_small. unfold is_byte in B2. lia. }
  assert (SAY : forall s0, nz s0 -> exists new, say (0 :: t) s0 = Ret (true, new) /\ shown (0 :: t) new s0) by (intros; apply say_shown; [discriminate|assumption]).
  unfold is_byte in *. destruct In as [-> | ->].
  - change (Z.land 218 1 =? 0) with true. change (218 =? 218) with true. cbv iota. unfold put_even.
    destruct (Z.eqb_spec p1 0) as [->|N0].
    + destruct (Z.leb_spec 64 p2) as [A1|A1]; [destruct (Z.leb_spec p2 254) as [A2|A2]|]; cbn [andb Z.eqb Z.leb Z.compare].
      * destruct (Z.leb_spec 64 (256 * 0 + p2)); [|lia]. destruct (Z.leb_spec (256 * 0 + p2) 254); [|lia]. cbn [andb].
        apply put_text_of; [apply SAY, nz_app; [litnz|exact N2]|]. cbn [put_text]. rewrite hex1 by (unfold is_byte; lia). reflexivity.
      * destruct (Z.leb_spec 64 (256 * 0 + p2)); [|lia]. destruct (Z.leb_spec (256 * 0 + p2) 254); [lia|]. cbn [andb].
        destruct (Z.leb_spec 256 (256 * 0 + p2)); [lia|]. destruct (Z.leb_spec 513 (256 * 0 + p2)); [lia|]. destruct (Z.leb_spec 16384 (256 * 0 + p2)); [lia|]. cbn [andb].
        apply put_text_of; [apply SAY; litnz|]. reflexivity.
      * destruct (Z.leb_spec 64 (256 * 0 + p2)); [lia|].
        destruct (Z.leb_spec 256 (256 * 0 + p2)); [lia|]. destruct (Z.leb_spec 513 (256 * 0 + p2)); [lia|]. destruct (Z.leb_spec 16384 (256 * 0 + p2)); [lia|]. cbn [andb].
        apply put_text_of; [apply SAY; litnz|]. reflexivity.
    + cbn [andb]. destruct (Z.leb_spec 64 (256 * p1 + p2)); [|lia]. destruct (Z.leb_spec (256 * p1 + p2) 254); [lia|]. cbn [andb].
      destruct (Z.leb_spec 256 (256 * p1 + p2)); [|lia]. cbn [andb].
      destruct (Z.eqb_spec p1 1) as [->|N1'].
      * destruct (Z.leb_spec (256 * 1 + p2) 511); [|lia]. apply put_text_of; [apply SAY, nz_app; [litnz|exact N2]|]. cbn [put_text]. rewrite hex1 by (unfold is_byte; lia). reflexivity.
      * destruct (Z.leb_spec (256 * p1 + p2) 511); [lia|].
        destruct (Z.eqb_spec p1 2) as [->|N2'].
        { destruct (Z.leb_spec 1 p2) as [A1|A1]; [destruct (Z.leb_spec p2 254) as [A2|A2]|]; cbn [andb Z.leb Z.compare Pos.compare Pos.compare_cont].
          - destruct (Z.leb_spec 513 (256 * 2 + p2)); [|lia]. destruct (Z.leb_spec (256 * 2 + p2) 766); [|lia]. cbn [andb].
            apply put_text_of; [apply SAY, nz_app; [litnz|exact N2]|]. cbn [put_text]. rewrite hex1 by (unfold is_byte; lia). reflexivity.
          - destruct (Z.leb_spec 513 (256 * 2 + p2)); [|lia]. destruct (Z.leb_spec (256 * 2 + p2) 766); [lia|]. cbn [andb].
            destruct (Z.leb_spec 16384 (256 * 2 + p2)); [lia|]. apply put_text_of; [apply SAY; litnz|]. reflexivity.
          - destruct (Z.leb_spec 513 (256 * 2 + p2)); [lia|]. cbn [andb].
            destruct (Z.leb_spec 16384 (256 * 2 + p2)); [lia|]. apply put_text_of; [apply SAY; litnz|]. reflexivity. }
        cbn [andb]. destruct (Z.leb_spec 513 (256 * p1 + p2)); [|lia]. destruct (Z.leb_spec (256 * p1 + p2) 766); [lia|]. cbn [andb].
        destruct (Z.leb_spec 64 p1); destruct (Z.leb_spec 16384 (256 * p1 + p2)); try lia.
        -- apply put_text_of; [apply SAY, nz_app; [litnz|apply nz_app; assumption]|]. cbn [put_text]. rewrite hex2 by (unfold is_byte; lia). reflexivity.
        -- apply put_text_of; [apply SAY; litnz|]. reflexivity.
  - change (Z.land 219 1 =? 0) with false. change (219 =? 218) with false. cbv iota. unfold put_odd. rewrite E5.
    destruct (Z.eqb_spec (Zlen data) 0); [lia|]. rewrite !Bool.andb_false_r.
    destruct (Z.eqb_spec p1 0) as [->|N0]; cbn [andb].
    + replace (256 * 0 + p2) with p2 by lia. destruct (Z.ltb_spec p2 32) as [A|A]; cbn [andb].
      * rewrite (E1 A). destruct (Z.eqb_spec p2 0) as [->|Np]; cbn [negb andb].
        { apply put_text_of; [apply SAY; litnz|]. reflexivity. }
        destruct (Z.eqb_spec p2 31) as [->|N31]; cbn [negb andb Z.leb Z.compare Pos.compare Pos.compare_cont Z.eqb Pos.eqb orb].
        { apply put_text_of; [apply SAY, nz_app; [litnz|apply nz_app; assumption]|]. reflexivity. }
        destruct (Z.leb_spec p2 30); [|lia]. apply put_text_of; [apply SAY, nz_app; [litnz|exact U2]|]. cbn [put_text]. exists (p_u p2). split; [apply p_u_dec; lia|reflexivity].
      * destruct (Z.eqb_spec p2 0); [lia|]. destruct (Z.leb_spec p2 30); [lia|]. destruct (Z.eqb_spec p2 16383); [lia|]. cbn [negb orb].
        apply put_text_of; [apply SAY, nz_app; [litnz|apply nz_app; assumption]|]. cbn [put_text]. rewrite hex2 by (unfold is_byte; lia). reflexivity.
    + destruct (Z.eqb_spec (256 * p1 + p2) 0); [lia|]. destruct (Z.leb_spec (256 * p1 + p2) 30); [lia|]. cbn [negb orb].
      destruct (Z.eqb_spec (256 * p1 + p2) 16383).
      * assert (p1 = 63 /\ p2 = 255) as (-> & ->) by lia. apply put_text_of; [apply SAY; litnz|]. reflexivity.
      * assert (F : (p1 =? 63) && (p2 =? 255) = false) by (destruct (Z.eqb_spec p1 63), (Z.eqb_spec p2 255); cbn [andb]; auto; lia). rewrite F.
        apply put_text_of; [apply SAY, nz_app; [litnz|apply nz_app; assumption]|]. cbn [put_text]. rewrite hex2 by (unfold is_byte; lia). reflexivity.
Qed.
