From Verif Require Import Base BaseLemmas BerSpec TlvModel TlvSpec TlvProofs TtlModel TtlSpec TtlProofs StrModel StrSpec StrProofs CapduModel CapduSpec.
Open Scope Z_scope.

(** ** Texts *)
Definition nz (s : list Z) : Prop := Forall (fun c => c <> 0) s.
Lemma nz_app a b : nz a -> nz b -> nz (a ++ b). Proof. intros; apply Forall_app; auto. Qed.
Lemma nz_check s : forallb (fun c => negb (c =? 0)) s = true -> nz s.
Proof. intros H. apply Forall_forall. intros x I. rewrite forallb_forall in H. specialize (H x I). lia. Qed.
Lemma nz_lit s : forallb (fun c => negb (c =? 0)) (lit s) = true -> nz (lit s). Proof. apply nz_check. Qed.
Lemma nz_firstn n s : nz s -> nz (firstn n s).
Proof. intros H. unfold nz in *. rewrite <- (firstn_skipn n s) in H. apply Forall_app in H. apply H. Qed.
Lemma nz_hexd n : 0 <= n < 16 -> hexd n <> 0. Proof. unfold hexd. destruct (n <? 10) eqn:E; lia. Qed.
Lemma nz_02X b : is_byte b -> nz (p_02X b).
Proof.
  intros B. unfold is_byte in B. constructor; [|constructor; [|constructor]]; apply nz_hexd.
  - split; [apply Z.div_pos; lia|apply Z.div_lt_upper_bound; lia].
  - apply Z.mod_pos_bound; lia.
Qed.
Lemma p_u_dec v : 0 <= v < 1000 -> dec_text v (p_u v).
Proof.
  intros R. unfold p_u, dec_text, decimal. destruct (Z.ltb_spec v 10).
  - exists [v]. split; [|reflexivity]. split; [repeat constructor; lia|]. split; [unfold number; cbn [fold_left]; lia|]. split; [discriminate|]. cbn [hd]. intros ->; reflexivity.
  - destruct (Z.ltb_spec v 100).
    + exists [v / 10; v mod 10]. split; [|reflexivity]. split; [repeat constructor; Z.div_mod_to_equations; lia|].
      split; [unfold number; cbn [fold_left]; Z.div_mod_to_equations; lia|]. split; [discriminate|]. cbn [hd]. intros E; exfalso; Z.div_mod_to_equations; lia.
    + exists [v / 100; v / 10 mod 10; v mod 10]. split; [|reflexivity]. split; [repeat constructor; Z.div_mod_to_equations; lia|].
      split; [unfold number; cbn [fold_left]; Z.div_mod_to_equations; lia|]. split; [discriminate|]. cbn [hd]. intros E; exfalso; Z.div_mod_to_equations; lia.
Qed.
Lemma nz_u v : 0 <= v < 1000 -> nz (p_u v).
Proof.
  intros R. destruct (p_u_dec v R) as (ds & (D & _) & ->). unfold nz, chars. apply Forall_map. revert D. apply Forall_impl. intros; lia.
Qed.
Lemma hexd_digit n : 0 <= n < 16 -> hexd n = hex_digit n.
Proof.
  intros H. assert (E : forallb (fun k => hexd (Z.of_nat k) =? hex_digit (Z.of_nat k)) (seq 0 16) = true) by (vm_compute; reflexivity).
  rewrite forallb_forall in E. specialize (E (Z.to_nat n) ltac:(apply in_seq; lia)). rewrite Z2Nat.id in E by lia. lia.
Qed.
Lemma hex_02X data : bytes data -> flat_map p_02X data = hex_text data.
Proof.
  intros B. unfold hex_text. induction data as [|b data IH]; [reflexivity|]. unfold bytes in B. inversion B as [|? ? Bb Bd]; subst.
  cbn [flat_map]. rewrite (IH Bd). unfold is_byte in Bb. unfold p_02X. rewrite !hexd_digit; [reflexivity|apply Z.mod_pos_bound; lia|].
  split; [apply Z.div_pos; lia|apply Z.div_lt_upper_bound; lia].
Qed.
Lemma cstring_app s r : nz s -> cstring (s ++ 0 :: r) = Some s.
Proof.
  induction 1 as [|c s H Hs IH]; [reflexivity|]. cbn [app cstring]. destruct (Z.eqb_spec c 0); [contradiction|]. rewrite IH. reflexivity.
Qed.
Lemma put_0 buf v : (length v <= length buf)%nat -> put buf 0 v = Ret (into buf v).
Proof. intros H. rewrite put_Ret by (cbn; lia). reflexivity. Qed.
Lemma snprintf_0 str s : str <> [] -> snprintf str 0 (length str) s = Ret (into str (firstn (length str - 1) s ++ [0])).
Proof.
  intros H. unfold snprintf. destruct (length str) as [|m] eqn:E; [destruct str; [contradiction|discriminate]|].
  replace (S m - 1)%nat with m by lia. rewrite put_0; [reflexivity|]. rewrite app_length, firstn_length. cbn [length]. lia.
Qed.
Lemma into_shown str s : str <> [] -> nz s -> shown str (into str (firstn (length str - 1) s ++ [0])) s.
Proof.
  intros H N. assert (L : (length str <> 0)%nat) by (destruct str; [contradiction|discriminate]). split.
  - apply into_len. rewrite app_length, firstn_length. cbn [length]. lia.
  - unfold into. rewrite <- app_assoc. cbn [app]. apply cstring_app. apply nz_firstn; exact N.
Qed.
Lemma snprintf_shown str s : str <> [] -> nz s -> exists new, snprintf str 0 (length str) s = Ret new /\ shown str new s.
Proof. intros H N. eexists; split; [apply snprintf_0; exact H|apply into_shown; assumption]. Qed.
Lemma say_shown str s : str <> [] -> nz s -> exists new, say str s = Ret (true, new) /\ shown str new s.
Proof. intros H N. destruct (snprintf_shown str s H N) as (new & E & S). exists new. unfold say. rewrite E. auto. Qed.
Lemma say_n_shown str s : str <> [] -> nz s -> exists new, say_n str s = Ret new /\ shown str new s.
Proof.
  intros H N. set (n := length str). assert (L : (n <> 0)%nat) by (unfold n; destruct str; [contradiction|discriminate]).
  unfold say_n, strncpy. fold n. set (w := firstn n (s ++ repeat 0 n)).
  assert (Lw : length w = n) by (unfold w; rewrite firstn_length, app_length, repeat_length; lia).
  rewrite put_0 by (rewrite Lw; unfold n; lia). cbn [bind]. unfold into. rewrite Lw. replace (skipn n str) with (@nil Z) by (symmetry; apply skipn_all). rewrite !app_nil_r.
  rewrite wr_Ret by (rewrite Lw; lia). eexists; split; [reflexivity|]. split; [rewrite upd_length; exact Lw|]. fold n.
  rewrite Lw. rewrite upd_split by (rewrite Lw; lia).
  replace (firstn (n - 1) w) with (firstn (n - 1) (s ++ repeat 0 n)) by (unfold w; rewrite firstn_firstn; f_equal; lia).
  destruct (Nat.leb_spec (n - 1) (length s)) as [C|C].
  - rewrite firstn_app. replace (n - 1 - length s)%nat with 0%nat by lia. cbn [firstn]. rewrite app_nil_r.
    apply cstring_app. apply nz_firstn; exact N.
  - rewrite firstn_app. rewrite !(firstn_all2 s) by lia. destruct (n - 1 - length s)%nat as [|k] eqn:K; [lia|].
    destruct n as [|n']; [lia|]. cbn [repeat firstn]. rewrite <- app_assoc. cbn [app]. apply cstring_app; exact N.
Qed.
Lemma shown_same str str' new s : length str' = length str -> shown str' new s -> shown str new s.
Proof. intros E (A & B). split; congruence. Qed.

(** ** SELECT *)
Lemma p_s_ok s r : nz s -> p_s (s ++ 0 :: r) = Ret s.
Proof.
  induction 1 as [|c s H Hs IH]; [reflexivity|]. cbn [app p_s]. destruct (Z.eqb_spec c 0); [contradiction|]. rewrite IH. reflexivity.
Qed.
Lemma put_at junk c z v : (length c + length v <= length junk)%nat -> (length z <= length v)%nat ->
  put (into junk (c ++ z)) (length c) v = Ret (into junk (c ++ v)).
Proof.
  intros L Lz. rewrite put_Ret by (rewrite into_len; rewrite ?app_length; lia). f_equal. unfold into.
  rewrite <- app_assoc. rewrite firstn_length_app. rewrite <- app_assoc. f_equal. f_equal.
  rewrite skipn_app. rewrite skipn_all2 by lia. cbn [app]. replace (length c + length v - length c)%nat with (length v) by lia.
  rewrite skipn_app. rewrite skipn_all2 by lia. cbn [app]. rewrite skipn_skipn'. f_equal. rewrite !app_length. lia.
Qed.
Lemma flat_len data : length (flat_map p_02X data) = (2 * length data)%nat.
Proof. induction data as [|b d IH]; [reflexivity|]. cbn [flat_map]. rewrite app_length, IH. cbn [p_02X length]. lia. Qed.
Lemma select_hex_ok data : forall i junk c z, length junk = 511%nat -> length c = (2 * i)%nat -> (i + length data <= 255)%nat -> (length z <= 1)%nat ->
  data <> [] -> select_hex data i (into junk (c ++ z)) = Ret (into junk (firstn 509 (c ++ flat_map p_02X data) ++ [0])).
Proof.
  induction data as [|b data IH]; intros i junk c z LJ Lc L Lz NE; [contradiction|]. cbn [select_hex flat_map]. cbn [length] in L.
  rewrite into_len by (rewrite app_length; lia). rewrite LJ.
  unfold snprintf. destruct (511 - 1 - i * 2)%nat as [|m] eqn:M; [lia|].
  assert (IL : (1 <= length (firstn m (p_02X b)))%nat) by (rewrite firstn_length; cbn [p_02X length]; lia).
  assert (IL2 : (length (firstn m (p_02X b)) <= 2)%nat) by (rewrite firstn_length; cbn [p_02X length]; lia).
  replace (i * 2)%nat with (length c) by lia.
  rewrite put_at by (rewrite app_length; cbn [length]; lia). cbn [bind].
  destruct data as [|b' data].
  - cbn [select_hex flat_map]. rewrite app_nil_r. do 2 f_equal. rewrite firstn_app. rewrite (firstn_all2 c) by lia. rewrite <- app_assoc. do 3 f_equal. lia.
  - assert (Hm : (2 <= m)%nat) by (cbn [length] in L; lia).
    rewrite firstn_all2 by (cbn [p_02X length]; lia). rewrite app_assoc.
    rewrite IH; [rewrite <- app_assoc; reflexivity|exact LJ|rewrite app_length; cbn [p_02X length]; lia|cbn [length] in *; lia|cbn [length]; lia|discriminate].
Qed.
Lemma printable_nz data : printable data = true -> nz data.
Proof. intros H. apply Forall_forall. intros x I. unfold printable in H. rewrite forallb_forall in H. specialize (H x I). lia. Qed.
Lemma nz_flat data : bytes data -> nz (flat_map p_02X data).
Proof. intros B. unfold bytes in B. induction B as [|b d Bb Bd IH]; [constructor|]. cbn [flat_map]. apply nz_app; [apply nz_02X; exact Bb|exact IH]. Qed.
Lemma sub_mid (a b d : list Z) : sub (a ++ b ++ d) (length a) (length b) = Ret b.
Proof.
  rewrite sub_Ret by (rewrite !app_length; lia). rewrite skipn_length_app. rewrite firstn_length_app. reflexivity.
Qed.
Lemma occurrence_nz p2 : nz (occurrence p2).
Proof. unfold occurrence. repeat (destruct (_ =? _); [apply nz_lit; vm_compute; reflexivity|]). apply nz_lit; vm_compute; reflexivity. Qed.
Definition id_text (data : list Z) : list Z := if printable data then data else firstn 509 (hex_text data).
Lemma select_file_ok h data le str junk : length h = 4%nat -> 1 <= Zlen data <= 255 -> bytes data -> str <> [] -> length junk = 511%nat ->
  exists new, select_file (h ++ [Zlen data] ++ data ++ [le]) str junk = Ret (true, new) /\
    shown str new (lit "SELECT " ++ occurrence (nth 3 h 0) ++ lit " " ++ id_text data).
Proof.
  intros Lh Ld B NE LJ. unfold select_file.
  destruct h as [|h0 [|h1 [|h2 [|h3 [|]]]]]; cbn [length] in Lh; try lia. cbn [nth].
  change (rd ([h0; h1; h2; h3] ++ [Zlen data] ++ data ++ [le]) 4) with (@Ret Z (Zlen data)). cbn [bind].
  replace (sub ([h0; h1; h2; h3] ++ [Zlen data] ++ data ++ [le]) 5 (Z.to_nat (Zlen data))) with (@Ret (list Z) data).
  2:{ symmetry. rewrite app_assoc. unfold Zlen at 2. rewrite Nat2Z.id. exact (sub_mid ([h0; h1; h2; h3] ++ [Zlen data]) data [le]). }
  cbn [bind]. unfold Zlen in Ld.
  assert (F : forallb (fun b : Z => negb ((b <? 32) || (126 <? b))) data = printable data).
  { unfold printable. clear. induction data as [|b d IH]; [reflexivity|]. cbn [forallb]. rewrite IH. f_equal. lia. }
  rewrite F. change (rd ([h0; h1; h2; h3] ++ [Zlen data] ++ data ++ [le]) 3) with (@Ret Z h3).
  unfold id_text. destruct (printable data) eqn:P.
  - rewrite snprintf_0 by (destruct junk; [discriminate LJ|discriminate]). cbn [bind]. rewrite LJ. rewrite firstn_all2 by lia.
    unfold into. rewrite <- app_assoc. cbn [app]. rewrite p_s_ok by (apply printable_nz; exact P). cbn [bind].
    apply say_shown; [exact NE|]. apply nz_app; [apply nz_lit; vm_compute; reflexivity|]. apply nz_app; [apply occurrence_nz|].
    apply nz_app; [apply nz_lit; vm_compute; reflexivity|]. apply printable_nz; exact P.
  - pose proof (select_hex_ok data 0 junk [] [] LJ eq_refl) as SH. cbn [app] in SH. rewrite into_nil in SH.
    rewrite SH; [|lia|cbn [length]; lia|intros ->; cbn [length] in Ld; lia]. cbn [bind].
    unfold into. rewrite <- app_assoc. cbn [app]. rewrite p_s_ok by (apply nz_firstn, nz_flat; exact B). cbn [bind].
    rewrite hex_02X by exact B. apply say_shown; [exact NE|]. apply nz_app; [apply nz_lit; vm_compute; reflexivity|]. apply nz_app; [apply occurrence_nz|].
    apply nz_app; [apply nz_lit; vm_compute; reflexivity|]. apply nz_firstn. rewrite <- hex_02X by exact B. apply nz_flat; exact B.
Qed.
Lemma id_text_full data : (length data <= 254)%nat \/ printable data = true -> id_text data = file_text data.
Proof.
  unfold id_text, file_text. destruct (printable data); [reflexivity|]. intros [L|L]; [|discriminate].
  apply firstn_all2. unfold hex_text. assert (E : length (flat_map (fun b => [hex_digit (b / 16); hex_digit (b mod 16)]) data) = (2 * length data)%nat).
  { clear. induction data as [|b d IH]; [reflexivity|]. cbn [flat_map]. rewrite app_length, IH. cbn [length]. lia. }
  rewrite E. lia.
Qed.
Lemma inter cla : is_byte cla -> (Z.land cla 0x80 =? 0) = (cla <? 128).
Proof. intros B. apply Bool.eqb_prop. revert cla B. apply (byte_sweep (fun c => Bool.eqb (Z.land c 0x80 =? 0) (c <? 128))). vm_compute; reflexivity. Qed.
Lemma wr0 str : str <> [] -> exists t, wr str 0 0 = Ret (0 :: t) /\ length (0 :: t) = length str.
Proof. destruct str as [|x t]; [contradiction|]. exists t. split; reflexivity. Qed.
Lemma cmd4 k c : command k c -> (4 <= length c)%nat.
Proof. intros H. destruct H; rewrite ?app_length; lia. Qed.

(** The frame of [iso7816_capdu_get_string] and [emv_capdu_get_string]. *)
Lemma iso_frame cla ins r str junk : is_byte cla -> cla < 128 -> (4 <= length str)%nat ->
  exists t, length (0 :: t) = length str /\
  iso_capdu_get_string (cla :: ins :: r) str junk =
  let c := cla :: ins :: r in let str := 0 :: t in
  if ins =? 0xA4 then capdu_select c str junk
  else if (ins =? 0xB2) || (ins =? 0xB3) then capdu_read_record c str
  else if (ins =? 0xDA) || (ins =? 0xDB) then capdu_put_data c str
  else match lookup ins iso_ins with
       | None => Ret (false, str)
       | Some s => let* str := say_n str (lit s) in Ret (true, str)
       end.
Proof.
  intros Bc Lc Ls. destruct (wr0 str) as (t & W & Lt); [destruct str; [cbn [length] in Ls; lia|discriminate]|].
  exists t. split; [exact Lt|]. unfold iso_capdu_get_string. cbn [Datatypes.length Nat.eqb orb].
  destruct (Nat.eqb_spec (length str) 0); [lia|]. rewrite W. cbn [bind].
  destruct (Nat.ltb_spec (length (0 :: t)) 4); [lia|]. cbn [rd nth_error bind].
  rewrite inter by exact Bc. destruct (Z.eqb_spec cla 255); [lia|]. destruct (Z.ltb_spec cla 128); [|lia]. reflexivity.
Qed.
Lemma emv_frame cla ins r str junk : is_byte cla -> cla < 128 -> (4 <= length str)%nat ->
  exists t, length (0 :: t) = length str /\
  emv_capdu_get_string (cla :: ins :: r) str junk =
  (let* (ok, str) := iso_capdu_get_string (cla :: ins :: r) (0 :: t) junk in
   if ok then Ret (0, str) else let* str := wr str 0 0 in Ret (3, str)).
Proof.
  intros Bc Lc Ls. destruct (wr0 str) as (t & W & Lt); [destruct str; [cbn [length] in Ls; lia|discriminate]|].
  exists t. split; [exact Lt|]. unfold emv_capdu_get_string. cbn [Datatypes.length Nat.eqb].
  destruct (Nat.eqb_spec (length str) 0); [lia|]. rewrite W. cbn [bind].
  destruct (Nat.ltb_spec (length (0 :: t)) 4); [lia|]. cbn [rd nth_error bind].
  rewrite inter by exact Bc. destruct (Z.eqb_spec cla 255); [lia|]. destruct (Z.ltb_spec cla 128); [|lia]. reflexivity.
Qed.

Lemma select_4s cla p1 p2 data le str junk : is_byte cla -> cla < 128 -> is_byte p1 -> is_byte p2 -> is_byte le -> bytes data ->
  1 <= Zlen data <= 255 -> (4 <= length str)%nat -> length junk = 511%nat ->
  exists new, iso_capdu_get_string ([cla; 0xA4; p1; p2] ++ [Zlen data] ++ data ++ [le]) str junk = Ret (true, new) /\
    shown str new (if (p1 =? 0) && (p2 =? 0) && is_mf data
                   then lit "SELECT Master File" else lit "SELECT " ++ occurrence p2 ++ lit " " ++ id_text data).
Proof.
  intros Bc Lc B1 B2 Ble B Ld Ls LJ.
  destruct (iso_frame cla 0xA4 ([p1; p2] ++ [Zlen data] ++ data ++ [le]) str junk Bc Lc Ls) as (t & Lt & E).
  change ([cla; 164; p1; p2] ++ [Zlen data] ++ data ++ [le]) with (cla :: 164 :: ([p1; p2] ++ [Zlen data] ++ data ++ [le])).
  rewrite E. cbn zeta. change (164 =? 164) with true. cbn iota.
  assert (NE : 0 :: t <> []) by discriminate.
  assert (CS : apdu_case (cla :: 164 :: [p1; p2] ++ [Zlen data] ++ data ++ [le]) = Ret CASE_4S).
  { change (cla :: 164 :: [p1; p2] ++ [Zlen data] ++ data ++ [le]) with ([cla; 164; p1; p2] ++ [Zlen data] ++ data ++ [le]).
    apply (cmd_case_short A4S); [|apply cmd_4s; [reflexivity|exact Ld]|auto].
    unfold bytes. repeat (apply Forall_app; split); try exact B; repeat constructor; try assumption; try (unfold is_byte; lia). }
  unfold capdu_select. rewrite CS. cbn [rd nth_error bind app]. rewrite inter by exact Bc.
  destruct (Z.ltb_spec cla 128); [|lia]. cbn [negb]. change (164 =? 164) with true. cbn [negb].
  change ((CASE_4S =? CASE_2S) || (CASE_4S =? CASE_4S)) with true. cbn [negb]. change (CASE_4S =? CASE_2S) with false. cbn iota.
  destruct (select_file_ok [cla; 164; p1; p2] data le (0 :: t) junk eq_refl Ld B NE LJ) as (nf & EF & SF). cbn [app nth] in EF, SF.
  destruct (Z.eqb_spec p1 0) as [P1|P1]; cbn [bind andb].
  - destruct (Z.eqb_spec p2 0) as [P2|P2]; cbn [andb].
    + destruct (Z.eqb_spec (Zlen data) 2) as [L2|L2].
      * destruct data as [|d0 [|d1 [|d2 data]]]; try (unfold Zlen in L2; cbn [length] in L2; lia). cbn [app rd nth_error bind is_mf].
        destruct (say_shown (0 :: t) (lit "SELECT Master File") NE ltac:(apply nz_lit; vm_compute; reflexivity)) as (nm & EM & SM).
        destruct ((d0 =? 63) && (d1 =? 0)).
        -- exists nm. split; [exact EM|]. apply (shown_same str (0 :: t)); [exact Lt|exact SM].
        -- exists nf. split; [exact EF|]. apply (shown_same str (0 :: t)); [exact Lt|exact SF].
      * cbn [bind]. exists nf. split; [exact EF|]. apply (shown_same str (0 :: t)); [exact Lt|].
        assert (M : is_mf data = false) by (destruct data as [|d0 [|d1 [|d2 data]]]; try reflexivity; exfalso; apply L2; reflexivity).
        rewrite M. exact SF.
    + exists nf. split; [exact EF|]. apply (shown_same str (0 :: t)); [exact Lt|exact SF].
  - exists nf. split; [exact EF|]. apply (shown_same str (0 :: t)); [exact Lt|exact SF].
Qed.

(** ** Safety *)
Definition fine (str : list Z) (m : out (bool * list Z)) : Prop :=
  exists ok new, m = Ret (ok, new) /\ length new = length str /\ exists s, cstring new = Some s.
Lemma fine_same str str' m : length str' = length str -> fine str' m -> fine str m.
Proof. intros E (ok & new & A & B & C). exists ok, new. split; [exact A|]. split; [congruence|exact C]. Qed.
Lemma fine_say t s : nz s -> fine (0 :: t) (say (0 :: t) s).
Proof.
  intros N. destruct (say_shown (0 :: t) s ltac:(discriminate) N) as (new & E & L & C). exists true, new. split; [exact E|]. split; [exact L|]. eexists; exact C.
Qed.
Lemma fine_false t : fine (0 :: t) (Ret (false, 0 :: t)).
Proof. exists false, (0 :: t). split; [reflexivity|]. split; [reflexivity|]. exists []. reflexivity. Qed.
Lemma fine_say_n t s : nz s -> fine (0 :: t) (let* str := say_n (0 :: t) s in Ret (true, str)).
Proof.
  intros N. destruct (say_n_shown (0 :: t) s ltac:(discriminate) N) as (new & E & L & C). exists true, new. rewrite E. split; [reflexivity|]. split; [exact L|]. eexists; exact C.
Qed.
Lemma ins_nz t ins s : forallb (fun e => forallb (fun c => negb (c =? 0)) (lit (snd e))) t = true -> lookup ins t = Some s -> nz (lit s).
Proof.
  intros F H. unfold lookup in H. destruct (find _ t) as [e|] eqn:E; [|discriminate]. injection H as <-. apply find_some in E as (I & _).
  rewrite forallb_forall in F. apply nz_check. exact (F e I).
Qed.
Lemma split4 {A} (c : list A) : (4 <= length c)%nat -> exists a b d e r, c = a :: b :: d :: e :: r.
Proof. destruct c as [|a [|b [|d [|e r]]]]; cbn [length]; intros; try lia. exists a, b, d, e, r. reflexivity. Qed.
Lemma case_shape c k : bytes c -> apdu_case c = Ret k -> 0 <= k -> exists h0 h1 h2 h3 r, c = h0 :: h1 :: h2 :: h3 :: r /\
  (k = CASE_2S -> length r = 1%nat) /\
  (k = CASE_3S -> r <> []) /\
  (k = CASE_4S -> exists data le, r = [Zlen data] ++ data ++ [le] /\ 1 <= Zlen data <= 255).
Proof.
  intros B H K0. unfold apdu_case in H. destruct (Z.ltb_spec (Zlen c) 4) as [L4|L4]; [injection H as <-; lia|].
  destruct (split4 c) as (h0 & h1 & h2 & h3 & r & ->); [unfold Zlen in L4; lia|].
  exists h0, h1, h2, h3, r. split; [reflexivity|].
  assert (ZL : Zlen (h0 :: h1 :: h2 :: h3 :: r) = 4 + Zlen r) by (unfold Zlen; cbn [length]; lia). rewrite ZL in H. clear ZL L4.
  destruct (Z.eqb_spec (4 + Zlen r) 4) as [E|E].
  { injection H as <-. split; [discriminate|]. split; discriminate. }
  destruct r as [|c5 r]; [unfold Zlen in E; cbn in E; lia|].
  assert (ZL : Zlen (c5 :: r) = 1 + Zlen r) by (unfold Zlen; cbn [length]; lia). rewrite ZL in *. clear ZL E.
  destruct (Z.eqb_spec (4 + (1 + Zlen r)) 5) as [E|E].
  { injection H as <-. split; [|split; discriminate]. intros _. unfold Zlen in E. cbn [length]. lia. }
  assert (B5 : is_byte c5) by (unfold bytes in B; do 4 apply Forall_inv_tail in B; exact (Forall_inv B)). unfold is_byte in B5.
  cbn [rd nth_error bind] in H. destruct (Z.eqb_spec c5 0) as [Z5|Z5]; cbn [negb] in H.
  - assert (K : k = CASE_2E \/ k = CASE_3E \/ k = CASE_4E).
    { destruct (_ =? _) in H; [injection H as <-; auto|].
      destruct (_ <? _) in H; [|injection H as <-; lia].
      destruct (rd _ 6) in H; cbn [bind] in H; [|discriminate|discriminate]. destruct (rd _ 7) in H; cbn [bind] in H; [|discriminate|discriminate].
      destruct (_ =? 0) in H; cbn [negb] in H; [injection H as <-; lia|].
      destruct (_ =? _) in H; [injection H as <-; auto|]. destruct (_ =? _) in H; injection H as <-; [auto|lia]. }
    destruct K as [->|[->| ->]]; (split; [discriminate|split; discriminate]).
  - destruct (Z.eqb_spec (5 + c5) (4 + (1 + Zlen r))) as [E3|E3].
    + injection H as <-. split; [discriminate|]. split; [discriminate|discriminate].
    + destruct (Z.eqb_spec (6 + c5) (4 + (1 + Zlen r))) as [E4|E4]; injection H as <-; [|lia].
      split; [discriminate|]. split; [discriminate|]. intros _.
      destruct (@exists_last _ r) as (data & le & ->); [intros ->; unfold Zlen in E; cbn in E; lia|].
      assert (c5 = Zlen data) by (unfold Zlen in *; rewrite app_length in E4; cbn [length] in E4; lia). subst c5.
      exists data, le. split; [reflexivity|]. unfold Zlen in *. lia.
Qed.
Lemma select_fine c t junk : bytes c -> (2 <= length c)%nat -> length junk = 511%nat -> fine (0 :: t) (capdu_select c (0 :: t) junk).
Proof.
  intros B L LJ. destruct c as [|c0 [|c1 r]]; cbn [length] in L; try lia. unfold capdu_select.
  destruct (apdu_case_total _ B) as (cs & CS). cbn [rd nth_error bind]. destruct (negb (Z.land c0 128 =? 0)); [apply fine_false|].
  destruct (negb (c1 =? 164)); [apply fine_false|]. rewrite CS. cbn [bind].
  assert (F : fine (0 :: t) (say (0 :: t) (lit "SELECT Master File"))) by (apply fine_say, nz_lit; vm_compute; reflexivity).
  destruct (Z.eqb_spec cs CASE_2S) as [->|N2]; cbn [orb negb].
  - destruct (case_shape _ _ B CS ltac:(vm_compute; discriminate)) as (h0 & h1 & p1 & p2 & r' & E & L5 & _).
    injection E as -> -> ->. cbn [rd nth_error bind].
    destruct (p1 =? 0); cbn [bind andb]; [|apply fine_false]. destruct (p2 =? 0); [exact F|apply fine_false].
  - destruct (Z.eqb_spec cs CASE_4S) as [->|N4]; cbn [negb]; [|apply fine_false].
    destruct (case_shape _ _ B CS ltac:(vm_compute; discriminate)) as (h0 & h1 & p1 & p2 & r' & E & _ & _ & L4).
    destruct (L4 eq_refl) as (data & le & -> & Ld). injection E as -> -> ->.
    assert (Bd : bytes data). { unfold bytes in *. do 5 apply Forall_inv_tail in B. apply Forall_app in B. apply B. }
    destruct (select_file_ok [h0; h1; p1; p2] data le (0 :: t) junk eq_refl Ld Bd ltac:(discriminate) LJ) as (nf & EF & SL & SC). cbn [app nth] in EF, SC.
    assert (FF : fine (0 :: t) (Ret (true, nf))) by (exists true, nf; split; [reflexivity|]; split; [exact SL|]; eexists; exact SC).
    cbn [rd nth_error bind app]. rewrite EF.
    destruct (p1 =? 0); cbn [bind andb]; [|exact FF]. destruct (p2 =? 0); cbn [bind]; [|exact FF].
    destruct (Z.eqb_spec (Zlen data) 2) as [L2|L2]; [|exact FF].
    destruct data as [|d0 [|d1 [|d2 data]]]; try (unfold Zlen in L2; cbn [length] in L2; lia). cbn [app rd nth_error bind].
    destruct ((d0 =? 63) && (d1 =? 0)); [exact F|exact FF].
Qed.
Ltac litnz := apply nz_lit; vm_compute; reflexivity.
Lemma shiftr3 p2 : is_byte p2 -> Z.shiftr (Z.land p2 0xF8) 3 = p2 / 8.
Proof. intros B. apply Z.eqb_eq. revert p2 B. apply (byte_sweep (fun c => Z.shiftr (Z.land c 0xF8) 3 =? c / 8)). vm_compute; reflexivity. Qed.
Lemma read_record_fine c t : bytes c -> (2 <= length c)%nat -> fine (0 :: t) (capdu_read_record c (0 :: t)).
Proof.
  intros B L. destruct c as [|c0 [|c1 r]]; cbn [length] in L; try lia. unfold capdu_read_record.
  destruct (apdu_case_total _ B) as (cs & CS). cbn [rd nth_error bind]. destruct (negb (Z.land c0 128 =? 0)); [apply fine_false|].
  destruct (negb ((c1 =? 178) || (c1 =? 179))); [apply fine_false|]. rewrite CS. cbn [bind].
  destruct (negb _) eqn:N; [apply fine_false|].
  assert (K : 0 <= cs). { unfold CASE_2S, CASE_2E, CASE_4S, CASE_4E in N. lia. }
  destruct (case_shape _ _ B CS K) as (h0 & h1 & p1 & p2 & r' & E & _). injection E as -> -> ->. cbn [rd nth_error bind].
  destruct (Z.eqb_spec p1 255) as [P|P]; [apply fine_false|].
  unfold bytes in B. apply Forall_inv_tail, Forall_inv_tail in B. assert (B1 := Forall_inv B). assert (B2 := Forall_inv (Forall_inv_tail B)).
  assert (N1 : nz (p_u p1)) by (apply nz_u; unfold is_byte in B1; lia).
  assert (NE : nz (p_u (Z.shiftr (Z.land p2 248) 3))).
  { rewrite shiftr3 by exact B2. unfold is_byte in B2. apply nz_u. split; [apply Z.div_pos; lia|]. apply Z.div_lt_upper_bound; lia. }
  set (record := if p1 =? 0 then _ else _). assert (NR : nz record).
  { subst record. destruct (p1 =? 0); [litnz|]. destruct (negb (Z.land p2 4 =? 0)); (apply nz_app; [litnz|exact N1]). }
  set (head := lit "READ RECORD from short EF " ++ _). assert (NH : nz head) by (apply nz_app; [litnz|apply nz_app; [exact NE|litnz]]).
  clearbody record head. destruct (negb (Z.land p2 4 =? 0)).
  - destruct (_ =? 0); [apply fine_say, nz_app; assumption|]. destruct (_ =? 1); [apply fine_say, nz_app; [exact NH|apply nz_app; [litnz|apply nz_app; [exact NR|litnz]]]|].
    destruct (_ =? 2); [|apply fine_false]. apply fine_say, nz_app; [exact NH|apply nz_app; [litnz|exact NR]].
  - apply fine_say, nz_app; [exact NH|apply nz_app; [apply occurrence_nz|apply nz_app; [litnz|exact NR]]].
Qed.
Lemma put_data_fine c t : bytes c -> (2 <= length c)%nat -> fine (0 :: t) (capdu_put_data c (0 :: t)).
Proof.
  intros B L. destruct c as [|c0 [|c1 r]]; cbn [length] in L; try lia. unfold capdu_put_data.
  destruct (apdu_case_total _ B) as (cs & CS). cbn [rd nth_error bind]. destruct (negb (Z.land c0 128 =? 0)); [apply fine_false|].
  destruct (negb ((c1 =? 218) || (c1 =? 219))); [apply fine_false|]. rewrite CS. cbn [bind].
  destruct (cs =? CASE_3E); [apply fine_say; litnz|]. destruct (Z.eqb_spec cs CASE_3S) as [->|N]; cbn [negb]; [|apply fine_false].
  destruct (case_shape _ _ B CS ltac:(vm_compute; discriminate)) as (h0 & h1 & p1 & p2 & r' & E & _ & NE & _). injection E as -> -> ->.
  destruct r' as [|lc r']; [exfalso; apply NE; reflexivity|]. cbn [rd nth_error bind].
  unfold bytes in B. apply Forall_inv_tail, Forall_inv_tail in B. assert (B1 := Forall_inv B). assert (B2 := Forall_inv (Forall_inv_tail B)).
  pose proof (nz_02X p1 B1) as N1. pose proof (nz_02X p2 B2) as N2. assert (U2 : nz (p_u p2)) by (apply nz_u; unfold is_byte in B2; lia).
  assert (NL : forall s x, forallb (fun c => negb (c =? 0)) (lit s) = true -> nz x -> fine (0 :: t) (say (0 :: t) (lit s ++ x))).
  { intros s x Hs Hx. apply fine_say, nz_app; [apply nz_lit; exact Hs|exact Hx]. }
  destruct (Z.land h1 1 =? 0).
  - destruct (_ && _); [apply NL; [vm_compute; reflexivity|exact N2]|]. destruct (p1 =? 1); [apply NL; [vm_compute; reflexivity|exact N2]|].
    destruct (_ && _); [apply NL; [vm_compute; reflexivity|exact N2]|]. destruct (_ <=? _); [apply NL; [vm_compute; reflexivity|apply nz_app; assumption]|]. apply fine_say; litnz.
  - destruct (_ && _ && _); [apply NL; [vm_compute; reflexivity|exact U2]|]. destruct (_ && _); [apply fine_say; litnz|].
    destruct (_ && _); [apply fine_say; litnz|]. destruct (_ || _); [apply NL; [vm_compute; reflexivity|apply nz_app; assumption]|]. apply fine_say; litnz.
Qed.
Lemma iso_fine c str junk : bytes c -> (2 <= length c)%nat -> str <> [] -> length junk = 511%nat -> fine str (iso_capdu_get_string c str junk).
Proof.
  intros B L NE LJ. unfold iso_capdu_get_string. destruct (Nat.eqb_spec (length c) 0); [lia|].
  destruct (Nat.eqb_spec (length str) 0); [destruct str; [contradiction|discriminate]|]. cbn [orb].
  destruct (wr0 str NE) as (t & W & Lt). rewrite W. cbn [bind]. apply (fine_same str (0 :: t) _ Lt).
  destruct (_ <? 4)%nat; [apply fine_false|].
  pose proof (select_fine c t junk B L LJ) as FS. pose proof (read_record_fine c t B L) as FR. pose proof (put_data_fine c t B L) as FP.
  destruct c as [|c0 [|c1 r]]; cbn [length] in L; try lia. cbn [rd nth_error bind].
  destruct (c0 =? 255); [apply fine_false|]. destruct (_ =? 0); [|apply fine_false].
  destruct (c1 =? 164); [exact FS|]. destruct (_ || _); [exact FR|]. destruct (_ || _); [exact FP|].
  destruct (lookup c1 iso_ins) as [s|] eqn:E; [|apply fine_false]. apply fine_say_n. apply (ins_nz iso_ins c1); [vm_compute; reflexivity|exact E].
Qed.
Definition fine_z (str : list Z) (m : out (Z * list Z)) : Prop :=
  exists r new, m = Ret (r, new) /\ length new = length str /\ exists s, cstring new = Some s.
Definition stray (c : list Z) (n : nat) : Prop :=
  (4 <= n)%nat /\ ((length c = 1%nat /\ hd 0 c <> 0xFF) \/ (2 <= length c < 4)%nat /\ 0x80 <= hd 0 c < 0xFF /\ nth 1 c 0 = 0xCA).
Lemma emv_exact c str junk : bytes c -> c <> [] -> str <> [] -> length junk = 511%nat ->
  (stray c (length str) /\ emv_capdu_get_string c str junk = UB) \/ (~ stray c (length str) /\ fine_z str (emv_capdu_get_string c str junk)).
Proof.
  intros B NEc NE LJ. unfold emv_capdu_get_string. destruct (Nat.eqb_spec (length c) 0); [destruct c; [contradiction|discriminate]|].
  destruct (Nat.eqb_spec (length str) 0); [destruct str; [contradiction|discriminate]|].
  destruct (wr0 str NE) as (t & W & Lt). rewrite W. cbn [bind].
  assert (RZ : forall r, fine_z str (Ret (r, 0 :: t))).
  { intros r. exists r, (0 :: t). split; [reflexivity|]. split; [exact Lt|]. exists []. reflexivity. }
  destruct (Nat.ltb_spec (length (0 :: t)) 4) as [L4|L4]; [right; split; [intros (X & _); lia|apply RZ]|].
  destruct c as [|c0 r]; [contradiction|]. cbn [rd nth_error bind].
  assert (B0 : is_byte c0) by (unfold bytes in B; exact (Forall_inv B)).
  rewrite inter by exact B0. destruct (Z.eqb_spec c0 255) as [F|F]; [right; split; [|apply RZ]|].
  { intros (_ & [(_ & X)|(_ & X & _)]); cbn [hd] in X; lia. }
  destruct (Z.ltb_spec c0 128) as [I|I]; cbn [negb].
  - destruct r as [|c1 r].
    + left. split; [split; [lia|]; left; split; [reflexivity|exact F]|].
      unfold iso_capdu_get_string. cbn [Datatypes.length Nat.eqb orb wr upd Nat.ltb Nat.leb bind].
      destruct (Nat.leb_spec (length t) 2) as [X|X]; [cbn [length] in L4; lia|]. cbn [rd nth_error bind].
      rewrite inter by exact B0. destruct (Z.eqb_spec c0 255); [contradiction|]. destruct (Z.ltb_spec c0 128); [|lia]. reflexivity.
    + right. split; [intros (_ & [(X & _)|(_ & X & _)]); cbn [length hd] in X; lia|].
      destruct (iso_fine (c0 :: c1 :: r) (0 :: t) junk B ltac:(cbn [length]; lia) ltac:(discriminate) LJ) as (ok & new & E & L & (s & C)).
      rewrite E. cbn [bind]. destruct ok; [exists 0, new; split; [reflexivity|]; split; [congruence|exists s; exact C]|].
      destruct (wr0 new) as (t' & W' & Lt'); [destruct new; [cbn [length] in L; lia|discriminate]|]. rewrite W'. cbn [bind].
      exists 3, (0 :: t'). split; [reflexivity|]. split; [congruence|]. exists []. reflexivity.
  - destruct r as [|c1 r]; [left; split; [split; [lia|]; left; split; [reflexivity|exact F]|reflexivity]|]. cbn [rd nth_error bind].
    destruct (Z.eqb_spec c1 202) as [CA|CA].
    + destruct r as [|p1 [|p2 r]].
      * left. split; [|reflexivity]. split; [lia|]. right. cbn [length hd nth]. split; [lia|]. split; [lia|exact CA].
      * left. split; [|reflexivity]. split; [lia|]. right. cbn [length hd nth]. split; [lia|]. split; [lia|exact CA].
      * right. split; [intros (_ & [(X & _)|(X & _)]); cbn [length] in X; lia|]. cbn [rd nth_error bind].
        unfold bytes in B. apply Forall_inv_tail, Forall_inv_tail in B. assert (B1 := Forall_inv B). assert (B2 := Forall_inv (Forall_inv_tail B)).
        destruct (snprintf_shown (0 :: t) (lit "GET DATA field " ++ p_02X p1 ++ p_02X p2) ltac:(discriminate)) as (new & E & L & C).
        { apply nz_app; [litnz|]. apply nz_app; apply nz_02X; assumption. }
        rewrite E. exists 0, new. split; [reflexivity|]. split; [congruence|]. eexists; exact C.
    + right. split; [intros (_ & [(X & _)|(_ & _ & X)]); cbn [length nth] in X; [lia|contradiction]|].
      destruct (lookup c1 emv_ins) as [s|] eqn:E; [|apply RZ].
      destruct (say_n_shown (0 :: t) (lit s) ltac:(discriminate)) as (new & EN & L & C); [apply (ins_nz emv_ins c1); [vm_compute; reflexivity|exact E]|].
      rewrite EN. exists 0, new. split; [reflexivity|]. split; [congruence|]. eexists; exact C.
Qed.

(** ** READ RECORD *)
Definition record_text (p1 p2 : Z) : option (list Z) :=
  let unit := if p1 =? 0 then lit "current record"
              else (if p2 mod 8 <? 4 then lit "record identifier " else lit "record number ") ++ p_u p1 in
  let how := p2 mod 8 in
  if how =? 0 then Some (lit "first occurence of " ++ unit)
  else if how =? 1 then Some (lit "last occurence of " ++ unit)
  else if how =? 2 then Some (lit "next occurence of " ++ unit)
  else if how =? 3 then Some (lit "previous occurence of " ++ unit)
  else if how =? 4 then Some unit
  else if how =? 5 then Some (lit "all records from " ++ unit ++ lit " up to last")
  else if how =? 6 then Some (lit "all records from the last up to " ++ unit)
  else None.
Lemma p2_bits p2 : is_byte p2 -> Z.land p2 4 = (if p2 mod 8 <? 4 then 0 else 4) /\ Z.land p2 3 = p2 mod 4 /\ p2 mod 4 = (p2 mod 8) mod 4.
Proof.
  intros B. assert (S : (Z.land p2 4 =? (if p2 mod 8 <? 4 then 0 else 4)) && (Z.land p2 3 =? p2 mod 4) && (p2 mod 4 =? (p2 mod 8) mod 4) = true).
  { revert p2 B. apply (byte_sweep (fun p2 => (Z.land p2 4 =? (if p2 mod 8 <? 4 then 0 else 4)) && (Z.land p2 3 =? p2 mod 4) && (p2 mod 4 =? (p2 mod 8) mod 4))). vm_compute; reflexivity. }
  lia.
Qed.
Lemma read_record cla p1 p2 rest str junk : is_byte cla -> cla < 128 -> is_byte p1 -> is_byte p2 ->
  apdu_case ([cla; 0xB2; p1; p2] ++ rest) = Ret CASE_2S \/ apdu_case ([cla; 0xB2; p1; p2] ++ rest) = Ret CASE_2E -> (4 <= length str)%nat ->
  match record_text p1 p2 with
  | Some u => p1 <> 0xFF -> exists new, iso_capdu_get_string ([cla; 0xB2; p1; p2] ++ rest) str junk = Ret (true, new) /\
      shown str new (lit "READ RECORD from short EF " ++ p_u (p2 / 8) ++ lit ", " ++ u)
  | None => exists new, iso_capdu_get_string ([cla; 0xB2; p1; p2] ++ rest) str junk = Ret (false, new)
  end.
Proof.
  intros Bc Lc B1 B2 HC Ls. destruct (iso_frame cla 0xB2 (p1 :: p2 :: rest) str junk Bc Lc Ls) as (t & Lt & E).
  cbn [app]. cbn [app] in HC. rewrite E. cbn zeta. change (0xB2 =? 0xA4) with false. change ((0xB2 =? 0xB2) || (0xB2 =? 0xB3)) with true. cbn iota.
  unfold capdu_read_record. cbn [rd nth_error bind]. rewrite inter by exact Bc. destruct (Z.ltb_spec cla 128); [|lia]. cbn [negb].
  change ((0xB2 =? 0xB2) || (0xB2 =? 0xB3)) with true. cbn [negb].
  assert (X : exists cs, apdu_case (cla :: 178 :: p1 :: p2 :: rest) = Ret cs /\ (cs = CASE_2S \/ cs = CASE_2E)) by (destruct HC as [C|C]; eexists; split; [exact C|auto|exact C|auto]).
  destruct X as (cs & -> & Hcs). cbn [bind].
  replace (negb (((cs =? CASE_2S) || (cs =? CASE_2E)) && (178 =? 178) || ((cs =? CASE_4S) || (cs =? CASE_4E)) && (178 =? 179))) with false by (destruct Hcs as [->| ->]; reflexivity).
  rewrite shiftr3 by exact B2. destruct (p2_bits p2 B2) as (Q1 & Q2 & Q3). unfold occurrence. rewrite Q1, Q2, Q3. clear Q1 Q2 Q3.
  assert (N1 : nz (p_u p1)) by (apply nz_u; unfold is_byte in B1; lia).
  assert (NE : nz (p_u (p2 / 8))) by (apply nz_u; unfold is_byte in B2; split; [apply Z.div_pos; lia|apply Z.div_lt_upper_bound; lia]).
  set (ef := p_u (p2 / 8)) in *. clearbody ef.
  assert (P8 := Z.mod_pos_bound p2 8 ltac:(lia)). unfold record_text. set (how := p2 mod 8) in *. clearbody how.
  assert (SH : forall u, nz u -> exists new, say (0 :: t) ((lit "READ RECORD from short EF " ++ ef ++ lit ", ") ++ u) = Ret (true, new) /\ shown str new (lit "READ RECORD from short EF " ++ ef ++ lit ", " ++ u)).
  { intros u Nu. destruct (say_shown (0 :: t) ((lit "READ RECORD from short EF " ++ ef ++ lit ", ") ++ u) ltac:(discriminate)) as (new & EN & SN).
    - apply nz_app; [|exact Nu]. apply nz_app; [litnz|]. apply nz_app; [exact NE|litnz].
    - exists new. split; [exact EN|]. apply (shown_same str (0 :: t)); [exact Lt|]. rewrite <- !app_assoc in SN. exact SN. }
  assert (HW : how = 0 \/ how = 1 \/ how = 2 \/ how = 3 \/ how = 4 \/ how = 5 \/ how = 6 \/ how = 7) by lia.
  assert (NU : forall s, forallb (fun c => negb (c =? 0)) (lit s) = true -> nz (if p1 =? 0 then lit "current record" else lit s ++ p_u p1)).
  { intros s Hs. destruct (p1 =? 0); [litnz|]. apply nz_app; [apply nz_lit; exact Hs|exact N1]. }
  assert (N7 : p1 = 255 \/ p1 <> 255) by lia.
  destruct HW as [->|[->|[->|[->|[->|[->|[->| ->]]]]]]]; cbn [Z.eqb Pos.eqb Z.ltb Z.compare Pos.compare Pos.compare_cont negb];
    [..|destruct (p1 =? 255); eexists; reflexivity];
    intros NF; destruct (Z.eqb_spec p1 255); try contradiction; apply SH; repeat (apply nz_app; [litnz|]);
    try (apply NU; vm_compute; reflexivity); try (apply nz_app; [apply NU; vm_compute; reflexivity|litnz]).
Qed.

(** ** Status words *)
Definition sw_prefix (sw1 : Z) : list Z :=
  if (sw1 =? 0x62) || (sw1 =? 0x63) then lit "Warning: "
  else if (sw1 =? 0x64) || (sw1 =? 0x65) || (sw1 =? 0x66) then lit "Execution error: " else lit "Checking error: ".
Definition sw_text (sw1 sw2 : Z) : list Z :=
  if (sw1 =? 0x90) && (sw2 =? 0) then lit "Normal"
  else if sw1 =? 0x61 then lit "Normal: " ++ p_u sw2 ++ lit " data bytes remaining"
  else if negb (Z.land sw1 0xF0 =? 0x60) && negb (Z.land sw1 0xF0 =? 0x90) then lit "Invalid"
  else if sw1 =? 0x60 then lit "Invalid"
  else if ((sw1 =? 0x67) || (sw1 =? 0x6B) || (sw1 =? 0x6D) || (sw1 =? 0x6E) || (sw1 =? 0x6F)) && negb (sw2 =? 0) || (Z.land sw1 0xF0 =? 0x90)
  then lit "Proprietary"
  else sw_prefix sw1 ++ sw_detail sw1 sw2.
Fixpoint leqb (a b : list Z) : bool := match a, b with [], [] => true | x :: a, y :: b => (x =? y) && leqb a b | _, _ => false end.
Lemma leqb_eq a : forall b, leqb a b = true -> a = b.
Proof. induction a as [|x a IH]; intros [|y b] H; try discriminate; [reflexivity|]. cbn [leqb] in H. f_equal; [lia|apply IH; destruct (leqb a b); [reflexivity|lia]]. Qed.
(** Which of the branches of [sw_text] is taken depends on SW2 only through SW2 = 0. *)
Definition sw_branch (sw1 : Z) (z : bool) : Z :=
  if (sw1 =? 0x90) && z then 0 else if sw1 =? 0x61 then 1
  else if negb (Z.land sw1 0xF0 =? 0x60) && negb (Z.land sw1 0xF0 =? 0x90) then 2
  else if sw1 =? 0x60 then 2
  else if ((sw1 =? 0x67) || (sw1 =? 0x6B) || (sw1 =? 0x6D) || (sw1 =? 0x6E) || (sw1 =? 0x6F)) && negb z || (Z.land sw1 0xF0 =? 0x90) then 3
  else if (sw1 =? 0x62) || (sw1 =? 0x63) then 4
  else if (sw1 =? 0x64) || (sw1 =? 0x65) || (sw1 =? 0x66) then 5 else 6.
Definition iso_branch (sw1 sw2 : Z) : Z :=
  match iso_sw_class sw1 sw2 with
  | SwNormal => if sw1 =? 0x61 then 1 else 0 | SwInvalid => 2 | SwProprietary => 3 | SwWarning => 4 | SwExecution => 5 | SwChecking => 6 end.
Lemma sw_branch_ok sw1 sw2 : is_byte sw1 -> iso_branch sw1 sw2 = sw_branch sw1 (sw2 =? 0).
Proof.
  intros B. assert (A : (iso_branch sw1 0 =? sw_branch sw1 true) && (iso_branch sw1 1 =? sw_branch sw1 false) = true).
  { revert sw1 B. apply (byte_sweep (fun sw1 => (iso_branch sw1 0 =? sw_branch sw1 true) && (iso_branch sw1 1 =? sw_branch sw1 false))). vm_compute; reflexivity. }
  destruct (Z.eqb_spec sw2 0) as [->|N]; [lia|].
  assert (E : iso_branch sw1 sw2 = iso_branch sw1 1).
  { unfold iso_branch, iso_sw_class. destruct (Z.eqb_spec sw2 0); [contradiction|]. reflexivity. }
  lia.
Qed.
Lemma sw_text_branch sw1 sw2 : sw_text sw1 sw2 =
  nth (Z.to_nat (sw_branch sw1 (sw2 =? 0)))
    [lit "Normal"; lit "Normal: " ++ p_u sw2 ++ lit " data bytes remaining"; lit "Invalid"; lit "Proprietary";
     lit "Warning: " ++ sw_detail sw1 sw2; lit "Execution error: " ++ sw_detail sw1 sw2; lit "Checking error: " ++ sw_detail sw1 sw2] [].
Proof.
  unfold sw_text, sw_branch, sw_prefix. destruct (_ && _); [reflexivity|]. destruct (sw1 =? 97); [reflexivity|]. destruct (_ && _); [reflexivity|].
  destruct (sw1 =? 96); [reflexivity|]. destruct (_ || _); [reflexivity|]. destruct (_ || _); [reflexivity|]. destruct (_ || _); reflexivity.
Qed.
Lemma nz_table sw1 e sw2 s : find (fun e => fst e =? sw1) sw_table = Some e -> lookup sw2 (snd e) = Some s -> nz (lit s).
Proof.
  intros F L. apply find_some in F as (I & _).
  assert (A : forallb (fun e => forallb (fun e => forallb (fun c => negb (c =? 0)) (lit (snd e))) (snd e)) sw_table = true) by (vm_compute; reflexivity).
  rewrite forallb_forall in A. exact (ins_nz (snd e) sw2 s (A e I) L).
Qed.
Lemma nz_detail sw1 sw2 : is_byte sw2 -> nz (sw_detail sw1 sw2).
Proof.
  intros B. assert (U : nz (p_u sw2)) by (apply nz_u; unfold is_byte in B; lia).
  assert (V : nz (p_u (Z.land sw2 0x0F))).
  { apply nz_u. replace (Z.land sw2 15) with (sw2 mod 16) by (change 15 with (Z.ones 4); rewrite Z.land_ones by lia; reflexivity). pose proof (Z.mod_pos_bound sw2 16); lia. }
  unfold sw_detail. destruct (sw1 =? 102); [apply nz_app; [litnz|apply nz_02X; exact B]|]. destruct (sw1 =? 108); [apply nz_app; [litnz|apply nz_app; [exact U|litnz]]|].
  destruct (find _ sw_table) as [e|] eqn:F; [|litnz]. destruct (lookup sw2 (snd e)) as [s|] eqn:L; [apply (nz_table _ _ _ _ F L)|].
  destruct (_ && _); [apply nz_app; [litnz|apply nz_app; [exact U|litnz]]|]. destruct (_ && _); [apply nz_app; [litnz|exact V]|litnz].
Qed.
Lemma nz_sw_text sw1 sw2 : is_byte sw2 -> nz (sw_text sw1 sw2).
Proof.
  intros B. rewrite sw_text_branch. pose proof (nz_detail sw1 sw2 B) as ND. assert (U : nz (p_u sw2)) by (apply nz_u; unfold is_byte in B; lia).
  destruct (Z.to_nat _) as [|[|[|[|[|[|[|n]]]]]]]; cbn [nth]; try litnz; try (apply nz_app; [litnz|]; first [exact ND|apply nz_app; [exact U|litnz]]).
  destruct n; constructor.
Qed.
Lemma sw_shown sw1 sw2 str : is_byte sw1 -> is_byte sw2 -> str <> [] ->
  exists new, sw1sw2_get_string sw1 sw2 str = Ret (true, new) /\ shown str new (sw_text sw1 sw2).
Proof.
  intros B1 B2 NE. assert (N : nz (sw_text sw1 sw2)) by (apply nz_sw_text; exact B2).
  unfold sw1sw2_get_string. destruct (Nat.eqb_spec (length str) 0) as [Z|Z]; [destruct str; [contradiction|discriminate Z]|].
  unfold sw_text in *. destruct (_ && _); [apply say_shown; assumption|]. destruct (sw1 =? 97); [apply say_shown; assumption|].
  destruct (_ && _); [apply say_shown; assumption|]. destruct (sw1 =? 96); [apply say_shown; assumption|].
  destruct (_ || _); [apply say_shown; assumption|].
  fold (sw_prefix sw1). set (p := sw_prefix sw1) in *. set (d := sw_detail sw1 sw2) in *. clearbody p d. cbn zeta.
  rewrite snprintf_0 by exact NE. cbn [bind].
  assert (LI : length (into str (firstn (length str - 1) p ++ [0])) = length str) by (apply into_len; rewrite app_length, firstn_length; cbn [length]; lia).
  rewrite LI. destruct (Nat.leb_spec (length str) (length p)) as [L|L].
  - exists (into str (firstn (length str - 1) p ++ [0])). split; [reflexivity|].
    assert (F : firstn (length str - 1) (p ++ d) = firstn (length str - 1) p).
    { rewrite firstn_app. replace (length str - 1 - length p)%nat with 0%nat by lia. cbn [firstn]. apply app_nil_r. }
    rewrite <- F. apply into_shown; assumption.
  - rewrite (firstn_all2 p) by lia. unfold snprintf. destruct (length str - length p)%nat as [|m] eqn:M; [lia|].
    rewrite put_at by (rewrite ?app_length, ?firstn_length; cbn [length]; lia). cbn [bind]. eexists; split; [reflexivity|].
    replace (p ++ firstn m d ++ [0]) with (firstn (length str - 1) (p ++ d) ++ [0]); [apply into_shown; assumption|].
    rewrite firstn_app. rewrite (firstn_all2 p) by lia. rewrite <- app_assoc. do 3 f_equal. lia.
Qed.
Lemma nib16 x : is_byte x -> x / 16 = 12 -> Z.land x 0xF0 = 0xC0 /\ Z.land x 0x0F = x mod 16.
Proof.
  intros B H. assert (S : negb (x / 16 =? 12) || ((Z.land x 0xF0 =? 0xC0) && (Z.land x 0x0F =? x mod 16)) = true).
  { clear H; revert x B; apply (byte_sweep (fun x => negb (x / 16 =? 12) || ((Z.land x 0xF0 =? 0xC0) && (Z.land x 0x0F =? x mod 16)))). vm_compute; reflexivity. }
  lia.
Qed.
Lemma sw_exact sw1 sw2 : is_byte sw1 -> is_byte sw2 ->
  exists s, (forall str, str <> [] -> exists new, sw1sw2_get_string sw1 sw2 str = Ret (true, new) /\ shown str new s) /\
  (match iso_sw_class sw1 sw2 with
   | SwNormal => begins_with (lit "Normal") s
   | SwWarning => begins_with (lit "Warning: ") s
   | SwExecution => begins_with (lit "Execution error: ") s
   | SwChecking => begins_with (lit "Checking error: ") s
   | SwProprietary => s = lit "Proprietary"
   | SwInvalid => s = lit "Invalid"
   end) /\
  (sw1 = 0x61 -> sw2 <> 0 -> exists t, dec_text sw2 t /\ s = lit "Normal: " ++ t ++ lit " data bytes remaining") /\
  (sw1 = 0x6C -> sw2 <> 0 -> exists t, dec_text sw2 t /\ s = lit "Checking error: Wrong Le field (" ++ t ++ lit " data bytes available)") /\
  (sw1 = 0x63 -> sw2 / 16 = 12 -> exists t, dec_text (sw2 mod 16) t /\ s = lit "Warning: Counter is " ++ t).
Proof.
  intros B1 B2. exists (sw_text sw1 sw2). split; [intros str NE; apply sw_shown; assumption|].
  assert (DU : dec_text sw2 (p_u sw2)) by (apply p_u_dec; unfold is_byte in B2; lia).
  split; [|split; [|split]].
  - pose proof (sw_branch_ok sw1 sw2 B1) as A. rewrite sw_text_branch. rewrite <- A. unfold iso_branch.
    destruct (iso_sw_class sw1 sw2); try (eexists; reflexivity); try reflexivity. destruct (sw1 =? 97); (eexists; reflexivity) || (exists []; reflexivity).
  - intros -> _. exists (p_u sw2). split; [exact DU|reflexivity].
  - intros -> _. exists (p_u sw2). split; [exact DU|]. reflexivity.
  - intros -> H. destruct (nib16 sw2 B2 H) as (N1 & N2). exists (p_u (sw2 mod 16)). split; [apply p_u_dec; pose proof (Z.mod_pos_bound sw2 16); lia|].
    assert (R : 192 <= sw2 < 208) by (Z.div_mod_to_equations; lia).
    unfold sw_text, sw_detail. cbn [Z.eqb Pos.eqb andb orb].
    replace (find (fun e => fst e =? 99) sw_table) with (Some (99, [(0x00, "State of non-volatile memory has changed"%string); (0x81, "File filled up by the last write"%string)])) by reflexivity.
    cbn [snd]. unfold lookup. cbn [find fst]. destruct (Z.eqb_spec 0 sw2); [lia|]. destruct (Z.eqb_spec 129 sw2); [lia|].
    rewrite N1, N2. cbn [andb orb Z.eqb Pos.eqb]. reflexivity.
Qed.
Lemma life_exact lcs : is_byte lcs ->
  match iso_life lcs with
  | LifeNone => lcs_get_string lcs = lit "No information given"
  | LifeCreation => lcs_get_string lcs = lit "Creation state"
  | LifeInit => lcs_get_string lcs = lit "Initialisation state"
  | LifeActive => lcs_get_string lcs = lit "Operational state (activated)"
  | LifeInactive => lcs_get_string lcs = lit "Operational state (deactivated)"
  | LifeTerminated => lcs_get_string lcs = lit "Termination state"
  | LifeProprietary | LifeReserved => lcs_get_string lcs = lit "Proprietary"
  end.
Proof.
  intros B. assert (A : leqb (lcs_get_string lcs) (lit (match iso_life lcs with
    | LifeNone => "No information given" | LifeCreation => "Creation state" | LifeInit => "Initialisation state"
    | LifeActive => "Operational state (activated)" | LifeInactive => "Operational state (deactivated)" | LifeTerminated => "Termination state"
    | _ => "Proprietary" end)) = true).
  { revert lcs B. apply (byte_sweep (fun lcs => leqb (lcs_get_string lcs) (lit (match iso_life lcs with
    | LifeNone => "No information given" | LifeCreation => "Creation state" | LifeInit => "Initialisation state"
    | LifeActive => "Operational state (activated)" | LifeInactive => "Operational state (deactivated)" | LifeTerminated => "Termination state"
    | _ => "Proprietary" end)))). vm_compute; reflexivity. }
  apply leqb_eq in A. destruct (iso_life lcs); exact A.
Qed.
Lemma read_record_all cla p1 sfi how rest str junk : 0 <= cla < 128 -> is_byte p1 -> p1 <> 0xFF -> 0 <= sfi <= 31 -> 0 <= how <= 7 -> bytes rest ->
  command A2S ([cla; 0xB2; p1; sfi * 8 + how] ++ rest) \/ command A2E ([cla; 0xB2; p1; sfi * 8 + how] ++ rest) -> (4 <= length str)%nat ->
  exists new tn ts ok, dec_text p1 tn /\ dec_text sfi ts /\
    iso_capdu_get_string ([cla; 0xB2; p1; sfi * 8 + how] ++ rest) str junk = Ret (ok, new) /\ (ok = true <-> how <> 7) /\
    let id := if p1 =? 0 then lit "current record" else lit "record identifier " ++ tn in
    let num := if p1 =? 0 then lit "current record" else lit "record number " ++ tn in
    (ok = true -> shown str new (lit "READ RECORD from short EF " ++ ts ++ lit ", " ++
      nth (Z.to_nat how) [lit "first occurence of " ++ id; lit "last occurence of " ++ id; lit "next occurence of " ++ id; lit "previous occurence of " ++ id;
                          num; lit "all records from " ++ num ++ lit " up to last"; lit "all records from the last up to " ++ num] [])).
Proof.
  intros Bc B1 N1 Bs Bh Br HC Ls. set (p2 := sfi * 8 + how) in *. assert (B2 : is_byte p2) by (unfold is_byte, p2; lia).
  assert (E8 : p2 / 8 = sfi) by (unfold p2; rewrite Z.add_comm, Z.div_add by lia; rewrite Z.div_small by lia; lia).
  assert (M8 : p2 mod 8 = how) by (unfold p2; rewrite Z.add_comm, Z.mod_add by lia; apply Z.mod_small; lia).
  assert (BB : bytes ([cla; 178; p1; p2] ++ rest)) by (unfold bytes; apply Forall_app; split; [repeat constructor; try assumption; unfold is_byte; lia|exact Br]).
  assert (AC : apdu_case ([cla; 178; p1; p2] ++ rest) = Ret CASE_2S \/ apdu_case ([cla; 178; p1; p2] ++ rest) = Ret CASE_2E).
  { destruct (apdu_case_short _ BB) as (r & E & K & _).
    - left. destruct HC as [C|C]; apply command_shape in C as (h & r & -> & Lh & X); rewrite Zlen_app; unfold Zlen in *; lia.
    - destruct HC as [C|C]; apply K in C; subst r; [left|right]; exact E. }
  pose proof (read_record cla p1 p2 rest str junk ltac:(unfold is_byte; lia) ltac:(lia) B1 B2 AC Ls) as R.
  assert (D1 : dec_text p1 (p_u p1)) by (apply p_u_dec; unfold is_byte in B1; lia).
  assert (D2 : dec_text sfi (p_u sfi)) by (apply p_u_dec; lia).
  unfold record_text in R. rewrite E8, M8 in R. clear AC HC BB E8 M8. clearbody p2.
  assert (HW : how = 0 \/ how = 1 \/ how = 2 \/ how = 3 \/ how = 4 \/ how = 5 \/ how = 6 \/ how = 7) by lia.
  destruct HW as [->|[->|[->|[->|[->|[->|[->| ->]]]]]]]; cbn [Z.eqb Pos.eqb Z.ltb Z.compare Pos.compare Pos.compare_cont] in R;
    [..|destruct R as (new & E); exists new, (p_u p1), (p_u sfi), false; split; [exact D1|]; split; [exact D2|]; split; [exact E|]; split; [split; [discriminate|intros X; exfalso; apply X; reflexivity]|cbn zeta; discriminate]];
    destruct (R N1) as (new & E & S); exists new, (p_u p1), (p_u sfi), true; (split; [exact D1|]); (split; [exact D2|]); (split; [exact E|]); (split; [split; [lia|reflexivity]|]); cbn zeta; intros _; exact S.
Qed.
Lemma read_record_emv cla p1 sfi le str junk : 0 <= cla < 128 -> 1 <= p1 <= 254 -> 0 <= sfi <= 31 -> is_byte le -> (4 <= length str)%nat ->
  exists new tn ts, dec_text p1 tn /\ dec_text sfi ts /\
    iso_capdu_get_string [cla; 0xB2; p1; sfi * 8 + 4; le] str junk = Ret (true, new) /\
    shown str new (lit "READ RECORD from short EF " ++ ts ++ lit ", record number " ++ tn).
Proof.
  intros Bc B1 Bs Bl Ls.
  destruct (read_record_all cla p1 sfi 4 [le] str junk Bc ltac:(unfold is_byte; lia) ltac:(lia) Bs ltac:(lia) ltac:(constructor; [exact Bl|constructor])
    ltac:(left; apply (cmd_2s [cla; 178; p1; sfi * 8 + 4] le); reflexivity) Ls) as (new & tn & ts & ok & D1 & D2 & E & OK & S).
  assert (ok = true) by (apply OK; lia). subst ok. specialize (S eq_refl). exists new, tn, ts. split; [exact D1|]. split; [exact D2|]. split; [exact E|].
  destruct (Z.eqb_spec p1 0); [lia|]. exact S.
Qed.
