(** C173: what is told while applications are selected and started.  Statements: properties.jsonl. *)
From Coq Require Import String.
From Verif Require Import Base BaseLemmas BerModel BerSpec BerProofs TlvListModel TlvModel TlvSpec TlvProofs DolModel TtlModel FieldsModel AppModel AppSpec AppProofs DolProofs
  TalModel TalSpec TalProofs StrModel StrSpec FlagsModel FlagsSpec FlagsTexts PrintModel DirModel DirProofs RecSpec SelModel SelSpec SelProofs.
Open Scope string_scope.
Open Scope Z_scope.
Open Scope list_scope.
Notation length := List.length.

(** The messages change nothing: results, applications, fields and states are those of C33, C34 and C35. *)
Theorem C173_in_step T (x : transport T) junk :
  (forall fuel s supported apps, bind (find_supported_n x junk fuel s supported apps) (fun v => Ret (fst v)) = find_supported_apps x junk fuel s supported apps) /\
  (forall s aid, bind (select_app_n x junk s aid) (fun v => Ret (fst v)) = select_app x junk s aid) /\
  (forall s data l, bind (gpo_n x s data l) (fun v => Ret (fst v)) = get_processing_options x s data l).
Proof.
  split; [|split]; intros.
  - unfold find_supported_apps. rewrite <- (find_silent x junk _ _ _ _ _ []). unfold silent, find_supported_n. destruct (find_loop_n _ _ _ _ _ _ _ _) as [[v n]| |]; reflexivity.
  - rewrite <- (select_silent x junk). unfold silent. destruct (select_app_n _ _ _ _) as [[v n]| |]; reflexivity.
  - rewrite <- (gpo_silent x). unfold silent. destruct (gpo_n _ _ _ _) as [[v n]| |]; reflexivity.
Qed.
(** Noting the names changes nothing. *)
Definition forget_names {T} (m : out (Z * list emvapp * (T * list (bool * list Z)) * list note)) : out (Z * list emvapp * T * list note) :=
  bind m (fun v => match v with (r, l, (s, _), n) => Ret (r, l, s, n) end).
Theorem C173_overheard T (x : transport T) junk fuel s log supported apps :
  forget_names (find_supported_n (overheard x) junk fuel (s, log) supported apps) = find_supported_n x junk fuel s supported apps.
Proof.
  unfold find_supported_n, forget_names. generalize true as exact, (@nil note) as n. revert s log supported apps.
  induction fuel as [|fuel IH]; intros; [reflexivity|]. cbn [find_loop_n]. destruct supported as [|aid rest]; [reflexivity|].
  destruct (sub (f_val aid) 0 (Z.to_nat (f_len aid))) as [name| |]; cbn [bind]; try reflexivity. cbv zeta.
  assert (Ea : exists (a0 : out (answer T)) log2, (if exact then x_select x s name else x_next x s name) = a0 /\
    (if exact then x_select (overheard x) (s, log) name else x_next (overheard x) (s, log) name) =
      match a0 with Ret a => Ret (mkAns (n_ret a) (n_data a) (n_sw a) (n_st a, log2)) | UB => UB | NoFuel => NoFuel end)
    by (destruct exact; cbn [overheard x_select x_next fst snd]; do 2 eexists; split; reflexivity).
  destruct Ea as (a0 & log2 & -> & ->). destruct a0 as [a| |]; cbn [bind n_ret n_data n_sw n_st]; try reflexivity.
  destruct (negb (n_ret a =? 0)); [reflexivity|]. destruct (exact && (n_sw a =? 0x6A81))%bool; [reflexivity|].
  destruct (negb (n_sw a =? 0x9000) && negb (n_sw a =? 0x6283))%bool; [apply IH|].
  destruct (app_create_from_fci junk (n_data a)) as [[b|]| |]; cbn [bind]; try reflexivity; [|apply IH].
  destruct (f_len aid =? f_len (a_aid b)); [destruct (n_sw a =? 0x9000); apply IH|]. destruct (f_flags aid =? 1); [destruct (n_sw a =? 0x9000); apply IH|apply IH].
Qed.

(** Whatever the card answers: every SELECT that is made is told, in order and with its name, and followed by what
    came of it; the applications told to be supported are those added, as many and in the same order. *)
Theorem C173_search T (x : transport T) junk : words x -> forall fuel s log supported apps r apps' s' log' n, Forall wf_field supported ->
  find_supported_n (overheard x) junk fuel (s, log) supported apps = Ret (r, apps', (s', log'), n) ->
  exists qs ls, log' = log ++ qs /\ apps' = apps ++ ls /\ search_told junk r qs ls n /\ length (filter supported_note n) = length ls /\
    Forall (fun q => exists f, In f supported /\ snd q = f_val f) qs.
Proof.
  intros Wd fuel s log supported apps r apps' s' log' n Wf E. destruct (find_told x Wd junk _ _ _ _ _ _ _ _ _ _ _ _ Wf E) as (qs & ls & ns & -> & -> & -> & St & Fq).
  exists qs, ls. cbn [app]. repeat (split; [reflexivity|]). split; [exact St|]. split; [eapply search_count; exact St|exact Fq].
Qed.

(** Unless the name is refused, the name is told first and the last message goes with the result; an application that
    is given back was made of the FCI that was told. *)
Theorem C173_selected T (x : transport T) junk : words x -> forall s aid r app_ s' n,
  select_app_n x junk s aid = Ret (r, app_, s', n) ->
  (r = TAL_INVALID_PARAMETER /\ n = [] /\ (Zlen aid < 5 \/ 16 < Zlen aid)) \/
  (exists mid m, n = Data (lit "SELECT application") aid :: mid ++ [m] /\ selected_told r m /\
    (r = 0 -> exists fci a, mid = [] /\ m = Data (lit "FCI") fci /\ app_ = Some a /\ app_create_from_fci junk fci = Ret (Some a))).
Proof.
  intros (Ws & _) s aid r app_ s' n E. unfold select_app_n in E. destruct ((Zlen aid <? 5) || (16 <? Zlen aid))%bool eqn:El.
  { left. assert (r = TAL_INVALID_PARAMETER /\ n = []) as (-> & ->) by (split; congruence). repeat (split; [reflexivity|]). lia. }
  right. cbv zeta in E. destruct (x_select x s aid) as [a| |] eqn:Ea; cbn [bind] in E; try discriminate. apply Ws in Ea.
  assert (One : forall code m, Ret (code, @None emvapp, n_st a, [Data (lit "SELECT application") aid] ++ [m]) = Ret (r, app_, s', n) -> selected_told code m -> code <> 0 ->
    exists mid m, n = Data (lit "SELECT application") aid :: mid ++ [m] /\ selected_told r m /\
    (r = 0 -> exists fci a, mid = [] /\ m = Data (lit "FCI") fci /\ app_ = Some a /\ app_create_from_fci junk fci = Ret (Some a))).
  { intros code m E1 Ts Nz. assert (r = code /\ n = [Data (lit "SELECT application") aid] ++ [m]) as (-> & ->) by (split; congruence).
    exists [], m. split; [reflexivity|]. split; [exact Ts|]. intros; contradiction. }
  destruct (negb (n_ret a =? 0)); [apply (One _ _ E); [constructor|discriminate]|].
  destruct (negb (n_sw a =? 0x9000)).
  { destruct (n_sw a =? 0x6A81); [apply (One _ _ E); [constructor|discriminate]|]. destruct (n_sw a =? 0x6A82); [apply (One _ _ E); [constructor|discriminate]|].
    destruct (n_sw a =? 0x6283); [apply (One _ _ E); [constructor|discriminate]|]. apply (One _ _ E); [apply sl_status, word_hex, Ea|discriminate]. }
  assert (Two : forall code m, Ret (code, @None emvapp, n_st a, ([Data (lit "SELECT application") aid] ++ [Data (lit "FCI") (n_data a)]) ++ [m]) = Ret (r, app_, s', n) ->
    selected_told code m -> code <> 0 ->
    exists mid m, n = Data (lit "SELECT application") aid :: mid ++ [m] /\ selected_told r m /\
    (r = 0 -> exists fci a, mid = [] /\ m = Data (lit "FCI") fci /\ app_ = Some a /\ app_create_from_fci junk fci = Ret (Some a))).
  { intros code m E1 Ts Nz. assert (r = code /\ n = ([Data (lit "SELECT application") aid] ++ [Data (lit "FCI") (n_data a)]) ++ [m]) as (-> & ->) by (split; congruence).
    exists [Data (lit "FCI") (n_data a)], m. split; [reflexivity|]. split; [exact Ts|]. intros; contradiction. }
  destruct (app_create_from_fci junk (n_data a)) as [[b|]| |] eqn:Ec; cbn [bind] in E; try discriminate; [|apply (Two _ _ E); [constructor|discriminate]].
  destruct (negb (f_len (a_aid b) =? Zlen aid)); [apply (Two _ _ E); [constructor|discriminate]|].
  destruct (mem_equal (f_val (a_aid b)) aid (length aid)) as [[|]| |]; cbn [bind negb] in E; try discriminate; [|apply (Two _ _ E); [constructor|discriminate]].
  assert (r = 0 /\ app_ = Some b /\ n = [Data (lit "SELECT application") aid] ++ [Data (lit "FCI") (n_data a)]) as (-> & -> & ->) by (repeat split; congruence).
  exists [], (Data (lit "FCI") (n_data a)). split; [reflexivity|]. split; [constructor|]. intros _. exists (n_data a), b. auto.
Qed.

(** The same for GET PROCESSING OPTIONS; the AIP and the AFL that are told are those given back. *)
Theorem C173_started T (x : transport T) : wf_transport x -> words x -> forall s data l r l' aip afl s' n,
  match data with Some d => bytes d | None => True end -> gpo_n x s data l = Ret (r, l', aip, afl, s', n) ->
  (r = TAL_INVALID_PARAMETER /\ n = []) \/
  (exists mid m, n = Data (lit "GET PROCESSING OPTIONS") (match data with Some d => d | None => [] end) :: mid ++ [m] /\ started_told r m /\
    (r = 0 -> exists f g, aip = GLive f /\ afl = GLive g /\ f_tag f = 0x82 /\ f_tag g = 0x94 /\
       (mid = [] \/ exists resp, mid = [Data (lit "GPO response") resp; Data (lit "AIP") (f_val f)] /\ m = Data (lit "AFL") (f_val g)))).
Proof.
  intros (_ & _ & _ & Wg) (_ & _ & Ww) s data l r l' aip afl s' n Bd E. unfold gpo_n in E.
  destruct (match data with Some d => ((Zlen d <? 2) || (255 <? Zlen d))%bool | None => false end).
  { left. split; congruence. }
  right. cbv zeta in E. set (q := Data (lit "GET PROCESSING OPTIONS") match data with Some d => d | None => [] end) in *.
  specialize (Wg s data Bd). destruct (x_gpo x s data) as [a| |] eqn:Ea; cbn [bind] in E; try discriminate. apply Ww in Ea. cbn [good_answer] in Wg.
  set (G := fun r aip afl n => exists mid m, n = q :: mid ++ [m] /\ started_told r m /\
    (r = 0 -> exists f g, aip = GLive f /\ afl = GLive g /\ f_tag f = 0x82 /\ f_tag g = 0x94 /\
       (mid = [] \/ exists resp, mid = [Data (lit "GPO response") resp; Data (lit "AIP") (f_val f)] /\ m = Data (lit "AFL") (f_val g)))).
  change (G r aip afl n).
  assert (One : forall m, n = [q] ++ [m] -> started_told r m -> r <> 0 -> G r aip afl n).
  { intros m -> Ts Nz. exists [], m. split; [reflexivity|]. split; [exact Ts|]. intros; contradiction. }
  assert (Two : forall m, n = ([q] ++ [Data (lit "GPO response") (n_data a)]) ++ [m] -> started_told r m -> r <> 0 -> G r aip afl n).
  { intros m -> Ts Nz. exists [Data (lit "GPO response") (n_data a)], m. split; [reflexivity|]. split; [exact Ts|]. intros; contradiction. }
  destruct (Z.eqb_spec (n_ret a) 0) as [R0|R0]; cbn [negb] in E.
  2:{ assert (r = TAL_TTL_FAILURE) as -> by congruence. apply (One (Err (lit "TTL failure"))); [congruence|constructor|discriminate]. }
  specialize (Wg R0) as (B & L). pose proof (small256 _ L) as S.
  destruct (negb (n_sw a =? 0x9000)).
  { destruct (n_sw a =? 0x6985).
    - assert (r = TAL_GPO_CONDITIONS_NOT_SATISFIED) as -> by congruence. apply (One (Info (lit "Conditions of use not satisfied"))); [congruence|constructor|discriminate].
    - assert (r = TAL_GPO_FAILED) as -> by congruence. apply (One (Err (lit "SW1SW2=0x" ++ p_04X (n_sw a)))); [congruence|apply sg_status, word_hex, Ea|discriminate]. }
  destruct (ber_decode (n_data a)) as [[r0 t]| |] eqn:Ed; cbn [bind] in E; try discriminate.
  destruct (r0 <=? 0).
  { assert (r = TAL_GPO_PARSE_FAILED) as -> by congruence. apply (Two (Err (lit "Failed to parse GPO response"))); [congruence|constructor|discriminate]. }
  destruct t as [t|]; [|discriminate]. destruct (decode_piece _ _ _ B S Ed) as (P & Lr).
  destruct (piece_val _ _ P ltac:(auto)) as (Bv & Lv). rewrite firstn_length_le in Lv by lia.
  assert (Lb : b_len t = Zlen (b_val t)) by (destruct P as [[_ ?]|(id & _ & _ & _ & _ & _ & ?)]; auto).
  assert (Sv : small (b_val t)) by (eapply small_le; [exact S|lia]).
  assert (Fin : forall g l1, (let* (v, n) := Ret (inl g : list field + Z, ([q] ++ [Data (lit "GPO response") (n_data a)])) in
      match v with
      | inr e => Ret (e, l, GNull, GNull, n_st a, n)
      | inl g => match find_tag 0x82 g with
        | None => Ret (TAL_GPO_FIELD_NOT_FOUND, l, GNull, GNull, n_st a, n ++ [Err (lit "AIP not found in GPO response")])
        | Some aip => match find_tag 0x94 g with
          | None => Ret (TAL_GPO_FIELD_NOT_FOUND, l, GFreed, GNull, n_st a, n ++ [Err (lit "AFL not found in GPO response")])
          | Some afl => Ret (0, l ++ g, GLive aip, GLive afl, n_st a, n) end end end) = Ret (r, l1, aip, afl, s', n) -> G r aip afl n).
  { intros g l1 E1. cbn [bind] in E1. destruct (find_tag 0x82 g) as [f|] eqn:F1.
    2:{ assert (r = TAL_GPO_FIELD_NOT_FOUND) as -> by congruence. apply (Two (Err (lit "AIP not found in GPO response"))); [congruence|constructor|discriminate]. }
    destruct (find_tag 0x94 g) as [h|] eqn:F2.
    2:{ assert (r = TAL_GPO_FIELD_NOT_FOUND) as -> by congruence. apply (Two (Err (lit "AFL not found in GPO response"))); [congruence|constructor|discriminate]. }
    assert (r = 0 /\ aip = GLive f /\ afl = GLive h /\ n = [q] ++ [Data (lit "GPO response") (n_data a)]) as (-> & -> & -> & ->) by (repeat split; congruence).
    exists [], (Data (lit "GPO response") (n_data a)). split; [reflexivity|]. split; [constructor|]. intros _. exists f, h.
    apply find_tag_spec in F1, F2. destruct F1 as (? & ? & _ & _ & F1), F2 as (? & ? & _ & _ & F2). repeat (split; [reflexivity || assumption|]). now left. }
  destruct (b_tag t =? 0x80).
  - destruct ((b_len t <? 6) || negb (Z.land (u32 (b_len t - 2)) 3 =? 0))%bool; cbn [bind] in E.
    { assert (r = TAL_GPO_PARSE_FAILED) as -> by congruence. unfold Zlen in *.
      apply (Two (Err (lit "Invalid GPO response format 1 length of " ++ p_dec (b_len t)))); [congruence| |discriminate].
      rewrite p_dec_text by lia. apply sg_length. lia. }
    destruct (sub (b_val t) 0 2) as [v1| |]; cbn [bind] in E; try discriminate.
    destruct (sub (b_val t) 2 (Z.to_nat (b_len t - 2))) as [v2| |]; cbn [bind] in E; try discriminate.
    change (find_tag 0x82 [mkField 0x82 2 v1 0; mkField 0x94 (b_len t - 2) v2 0]) with (Some (mkField 0x82 2 v1 0)) in E.
    change (find_tag 0x94 [mkField 0x82 2 v1 0; mkField 0x94 (b_len t - 2) v2 0]) with (Some (mkField 0x94 (b_len t - 2) v2 0)) in E.
    assert (r = 0 /\ aip = GLive (mkField 0x82 2 v1 0) /\ afl = GLive (mkField 0x94 (b_len t - 2) v2 0) /\
      n = ([q] ++ [Data (lit "GPO response") (n_data a)]) ++ [Data (lit "AIP") v1; Data (lit "AFL") v2]) as (-> & -> & -> & ->) by (repeat split; congruence).
    exists [Data (lit "GPO response") (n_data a); Data (lit "AIP") v1], (Data (lit "AFL") v2). split; [reflexivity|]. split; [constructor|]. intros _.
    do 2 eexists. repeat (split; [reflexivity|]). right. exists (n_data a). split; reflexivity.
  - destruct (b_tag t =? 0x77); [|apply (Fin [] l'); exact E].
    destruct (parse_any (b_val t) [] Bv Sv) as (r1 & added & Ep & Hr & _). rewrite Ep in E. cbn [bind] in E. change ([] ++ added) with added in E.
    destruct Hr as [-> | ->]; cbn [Z.ltb Z.compare] in E; [apply (Fin added l'); exact E|].
    cbn [bind] in E. assert (r = TAL_GPO_PARSE_FAILED) as -> by congruence. apply (Two (Err (lit "Failed to parse GPO response format 2"))); [congruence|constructor|discriminate].
Qed.

(** The last message tells the result. *)
Theorem C173_which : (forall r r' m, selected_told r m -> selected_told r' m -> r = r') /\ (forall r r' m, started_told r m -> started_told r' m -> r = r').
Proof.
  split; intros r r' m H1 H2; destruct H1; inversion H2; try reflexivity;
    match goal with H : _ = _ |- _ => exfalso; revert H; vm_compute; discriminate end.
Qed.

(** The numbers told are the card's: the status, and the length of a response of format 1 that is refused. *)
Theorem C173_numbers T (x : transport T) junk :
  (forall fuel s f apps a, wf_field f -> x_select x s (f_val f) = Ret a -> n_ret a = 0 -> 0 <= n_sw a < 65536 -> ~ In (n_sw a) [0x9000; 0x6283; 0x6A81; 0x6A82] ->
     find_supported_n x junk (Datatypes.S (Datatypes.S fuel)) s [f] apps =
       Ret (0, apps, n_st a, [asked (true, f_val f); Err (lit "Unexpected SELECT status 0x" ++ hex_text [n_sw a / 256; n_sw a mod 256])])) /\
  (forall s aid a, 5 <= Zlen aid <= 16 -> x_select x s aid = Ret a -> n_ret a = 0 -> 0 <= n_sw a < 65536 -> ~ In (n_sw a) [0x9000; 0x6283; 0x6A81; 0x6A82] ->
     select_app_n x junk s aid = Ret (TAL_APP_SELECTION_FAILED, None, n_st a,
       [asked (true, aid); Err (lit "SW1SW2=0x" ++ hex_text [n_sw a / 256; n_sw a mod 256] ++ [10])])) /\
  (forall s l a, x_gpo x s None = Ret a -> n_ret a = 0 -> 0 <= n_sw a < 65536 -> n_sw a <> 0x9000 -> n_sw a <> 0x6985 ->
     gpo_n x s None l = Ret (TAL_GPO_FAILED, l, GNull, GNull, n_st a,
       [Data (lit "GET PROCESSING OPTIONS") []; Err (lit "SW1SW2=0x" ++ hex_text [n_sw a / 256; n_sw a mod 256])])) /\
  (forall s l a enc flags v trail, x_gpo x s None = Ret a -> n_ret a = 0 -> n_sw a = 0x9000 -> n_data a = enc ++ trail -> encodes enc 0x80 flags v -> Zlen (n_data a) <= 256 ->
     (Zlen v < 6 \/ (Zlen v - 2) mod 4 <> 0) ->
     gpo_n x s None l = Ret (TAL_GPO_PARSE_FAILED, l, GNull, GNull, n_st a,
       [Data (lit "GET PROCESSING OPTIONS") []; Data (lit "GPO response") (n_data a); Err (lit "Invalid GPO response format 1 length of " ++ decimal_text (Zlen v))])).
Proof.
  assert (Ns : forall w k, ~ In w [0x9000; 0x6283; 0x6A81; 0x6A82] -> In k [0x9000; 0x6283; 0x6A81; 0x6A82] -> (w =? k) = false)
    by (intros w k H1 H2; apply Z.eqb_neq; intros ->; contradiction).
  split; [|split; [|split]].
  - intros fuel s f apps a (Lf & _) Ea R0 Sw N. unfold find_supported_n. cbn [find_loop_n].
    assert (Sb : sub (f_val f) 0 (Z.to_nat (f_len f)) = Ret (f_val f)) by (rewrite Lf; unfold Zlen; rewrite Nat2Z.id; unfold sub; rewrite Nat.leb_refl; cbn [skipn]; now rewrite firstn_all).
    rewrite Sb. cbn [bind]. rewrite Ea. cbn [bind]. rewrite R0. rewrite !(Ns _ _ N) by (cbn [In]; tauto). cbn [Z.eqb negb andb].
    destruct (word_hex _ Sw) as (-> & _). reflexivity.
  - intros s aid a La Ea R0 Sw N. unfold select_app_n. replace ((Zlen aid <? 5) || (16 <? Zlen aid))%bool with false by lia. rewrite Ea. cbn [bind]. rewrite R0.
    rewrite !(Ns _ _ N) by (cbn [In]; tauto). cbn [Z.eqb negb]. destruct (word_hex _ Sw) as (-> & _). reflexivity.
  - intros s l a Ea R0 Sw N1 N2. unfold gpo_n. rewrite Ea. cbn [bind]. rewrite R0. rewrite (proj2 (Z.eqb_neq _ _) N1), (proj2 (Z.eqb_neq _ _) N2). cbn [Z.eqb negb].
    destruct (word_hex _ Sw) as (-> & _). reflexivity.
  - intros s l a enc flags v trail Ea R0 S9 Ed He Ld Bad. unfold gpo_n. rewrite Ea. cbn [bind]. rewrite R0, S9. cbn [Z.eqb Pos.eqb negb].
    pose proof (small256 _ Ld) as S. rewrite Ed in S. pose proof (ber_decode_encodes_eq _ _ _ _ trail He S) as Eb. rewrite <- Ed in Eb. rewrite Eb. cbn [bind].
    pose proof (encodes_length _ _ _ _ He) as Le. pose proof (encodes_vlen _ _ _ _ He) as Lv.
    assert (Lz : Zlen v < 256) by (rewrite Ed in Ld; unfold Zlen in *; rewrite app_length in Ld; lia).
    assert (0 <= Zlen v) by (unfold Zlen; lia).
    destruct (Z.leb_spec (Zlen enc) 0); [unfold Zlen in *; lia|]. cbn [b_tag b_len b_val]. change (0x80 =? 0x80) with true. cbv iota.
    replace ((Zlen v <? 6) || negb (Z.land (u32 (Zlen v - 2)) 3 =? 0))%bool with true.
    + cbn [bind]. rewrite p_dec_text by lia. reflexivity.
    + symmetry. destruct (Z.ltb_spec (Zlen v) 6); [reflexivity|]. cbn [orb]. change (u32 (Zlen v - 2)) with ((Zlen v - 2) mod 2 ^ 32). rewrite Z.mod_small by lia.
      change 3 with (Z.ones 2). rewrite Z.land_ones by lia. change (2 ^ 2) with 4. apply negb_true_iff, Z.eqb_neq. destruct Bad; lia.
Qed.

(** Is the outcome of every SELECT told in words?  Of those of which more than the FCI is told it is, by the message
    after it.  What is missing: those whose FCI is invalid. *)
Definition in_words (m : note) : bool := match m with Data _ _ => false | _ => true end.
Theorem C173_outcome_partial junk q r l n : told junk q r l n -> (forall fci, n <> [asked q; Data (lit "FCI") fci]) ->
  exists m a, n = a ++ [m] /\ in_words m = true /\ filter in_words n = [m].
Proof.
  assert (A : in_words (asked q) = false) by (destruct q as [[|] name]; reflexivity).
  intros H N. destruct H; try (exfalso; eapply N; reflexivity);
    (eexists; first [eexists [_]; split; [reflexivity|] | eexists [_; _]; split; [reflexivity|]]; split; [reflexivity|]; cbn [filter]; rewrite A; reflexivity).
Qed.
(** An application whose FCI is invalid is passed over, and nothing is said of it. *)
Definition ex_sel (fci : list Z) (sw : Z) : transport unit :=
  mkTr (fun _ _ => Ret (mkAns 0 fci sw tt)) (fun _ _ => Ret (mkAns 0 [] 0x6A82 tt))
       (fun _ _ _ => Ret (mkAns 0 [] 0x6A83 tt)) (fun _ _ => Ret (mkAns 0 [0x80; 6; 0x19; 0x80; 8; 1; 1; 0] 0x9000 tt)).
Definition ex_visa : field := mkField 0x9F06 5 [0xA0; 0; 0; 0; 3] 1.
Definition ex_junk : list Z := repeat 0 17.
Theorem C173_outcome_refuted : exists (x : transport unit) n, words x /\ wf_field ex_visa /\
  find_supported_n x ex_junk 9 tt [ex_visa] [] = Ret (0, [], tt, n) /\ n <> [] /\ filter in_words n = [].
Proof.
  exists (ex_sel [1; 2; 3] 0x9000). eexists. split; [split; [|split]; intros s d a H; cbn [ex_sel x_select x_next x_gpo] in H; injection H as <-; cbn [n_sw]; lia|].
  split; [unfold wf_field, bytes, is_byte; cbn; repeat split; try lia; repeat constructor; lia|].
  split; [vm_compute; reflexivity|]. split; [discriminate|vm_compute; reflexivity].
Qed.

Definition ex_fci : list Z := [0x6F; 20; 0x84; 7; 0xA0; 0; 0; 0; 3; 0x10; 0x10; 0xA5; 9; 0x50; 4; 0x56; 0x49; 0x53; 0x41; 0x87; 1; 1].
Example C173_ex : exists l n n2 n3 app_ f g,
  find_supported_n (overheard (ex_sel ex_fci 0x9000)) ex_junk 9 (tt, []) [ex_visa] [] =
    Ret (0, l, (tt, [(true, [0xA0; 0; 0; 0; 3]); (false, [0xA0; 0; 0; 0; 3])]), n) /\ length l = 1%nat /\
  map text_of n = map lit ["SELECT application"; "FCI"; "Application is supported: partial match"; "SELECT next application"; "Application not found"] /\
  select_app_n (ex_sel ex_fci 0x9000) ex_junk tt [0xA0; 0; 0; 0; 3; 0x10; 0x10] = Ret (0, Some app_, tt, n2) /\
  map text_of n2 = map lit ["SELECT application"; "FCI"] /\
  gpo_n (ex_sel ex_fci 0x9000) tt None [] = Ret (0, [f; g], GLive f, GLive g, tt, n3) /\
  map text_of n3 = map lit ["GET PROCESSING OPTIONS"; "GPO response"; "AIP"; "AFL"].
Proof. do 7 eexists. split; [vm_compute; reflexivity|]. repeat (split; [vm_compute; reflexivity|]). vm_compute; reflexivity. Qed.

Print Assumptions C173_in_step.
Print Assumptions C173_overheard.
Print Assumptions C173_search.
Print Assumptions C173_selected.
Print Assumptions C173_started.
Print Assumptions C173_which.
Print Assumptions C173_numbers.
Print Assumptions C173_outcome_partial.
Print Assumptions C173_outcome_refuted.
