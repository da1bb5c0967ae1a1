(** Property theorems for DOLs and COMPACT-TLV: C17 - C20. *)
From Verif Require Import Base BaseLemmas BerSpec BerProofs TlvListModel DolModel DolSpec DolProofs.

(** C17.  An encoded DOL iterates to exactly its entries. *)
Theorem C17_dol_entries : forall enc es, dol enc es ->
  dol_itr_all (S (length enc)) enc = Ret (es, 0).
Proof.
  intros enc es H. destruct (dol_itr_all_run (S (length enc)) enc (dol_bytes _ _ H) ltac:(lia))
    as (es0 & e & E & _ & _ & U). destruct (U es H) as [-> ->]. exact E.
Qed.
Print Assumptions C17_dol_entries.

(** C17.  Any buffer: iteration ends without reading out of bounds, and ends
    without error exactly if the buffer is a DOL. *)
Theorem C17_dol_any_buffer : forall buf, bytes buf ->
  exists es e, dol_itr_all (S (length buf)) buf = Ret (es, e) /\ e <= 0 /\
    (e = 0 <-> exists es', dol buf es').
Proof.
  intros buf H. destruct (dol_itr_all_run (S (length buf)) buf H ltac:(lia))
    as (es0 & e & E & H1 & H2 & U). exists es0, e. split; [exact E|]. split; [exact H1|].
  split; [intros; exists es0; tauto|]. intros [es' Hd]. now apply U in Hd.
Qed.
Print Assumptions C17_dol_any_buffer.

(** C17.  The computed length is the sum of the entry lengths for a DOL, and an
    error (-3) for anything else.  (Below 16 MiB; the sum is kept in an int.) *)
Theorem C17_dol_data_length : forall buf, bytes buf -> buf <> [] -> Zlen buf < 16777216 ->
  exists r, dol_compute_data_length buf = Ret r /\
   (forall es, dol buf es -> r = dol_total es) /\ ((forall es, ~ dol buf es) -> r = -3).
Proof. exact dol_length_ok. Qed.
Print Assumptions C17_dol_data_length.

Lemma ident1 b : is_byte b -> b mod 32 <> 31 -> identifier [b].
Proof. intros; constructor; auto. Qed.
Lemma ident2 b c : is_byte b -> b mod 32 = 31 -> 0 <= c < 128 -> identifier [b; c].
Proof. intros. apply (id_high b [] c); auto. Qed.

(** 9F02 06, 9F37 04, 9A 03 *)
Lemma C17_dol3 : dol [0x9F;0x02;6; 0x9F;0x37;4; 0x9A;3] [(0x9F02,6); (0x9F37,4); (0x9A,3)].
Proof.
  apply (dol_cons [0x9F;0x02] 6 _ [(0x9F37,4); (0x9A,3)]).
  - apply ident2; unfold is_byte; lia.
  - unfold is_byte; lia.
  - apply (dol_cons [0x9F;0x37] 4 _ [(0x9A,3)]).
    + apply ident2; unfold is_byte; lia.
    + unfold is_byte; lia.
    + apply (dol_cons [0x9A] 3 [] []); [apply ident1; [unfold is_byte; lia|discriminate]|unfold is_byte; lia|constructor].
Qed.
Example C17_ex :
  dol_itr_all 9 [0x9F;0x02;6; 0x9F;0x37;4; 0x9A;3] = Ret ([(0x9F02,6); (0x9F37,4); (0x9A,3)], 0) /\
  dol_compute_data_length [0x9F;0x02;6; 0x9F;0x37;4; 0x9A;3] = Ret 13 /\
  dol_compute_data_length [0x9F;0x02;6; 0x9F;0x37;4; 0x9A] = Ret (-3) /\
  dol_compute_data_length [0x9F;0x02;6; 0x9F;0x37] = Ret (-3).
Proof. vm_compute; auto. Qed.

(** C18.  For a DOL whose data fits, the output starts with the data of the
    entries in order ([entry_data]); the rest of the buffer is unchanged. *)
Theorem C18_dol_build_exact : forall buf es sources data,
  dol buf es -> es <> [] -> wf_sources sources -> sources <> [] -> data <> [] ->
  dol_total es <= Zlen data ->
  exists vs, Forall2 (entry_data sources) es vs /\ Zlen (concat vs) = dol_total es /\
    dol_build_data buf sources data =
      Ret (0, concat vs ++ skipn (length (concat vs)) data, dol_total es).
Proof. exact build_valid. Qed.
Print Assumptions C18_dol_build_exact.

(** C18.  The specification leaves no choice: the octets of an entry are
    determined by the sources. *)
Theorem C18_entry_data_unique : forall sources e v1 v2,
  entry_data sources e v1 -> entry_data sources e v2 -> v1 = v2.
Proof. exact entry_data_fun. Qed.
Print Assumptions C18_entry_data_unique.

(** 9F02 (numeric) cut to 4 and padded to 8; 84 (not numeric) cut to 2 and padded
    to 4; 9F37 missing; the first source wins for 9A. *)
Example C18_ex :
  dol_build_data [0x9F;2;4; 0x9F;2;8; 0x84;2; 0x84;4; 0x9F;0x37;2; 0x9A;1]
    [[mkField 0x9A 1 [7] 0; mkField 0x9F02 6 [0;0;0;0;0x12;0x34] 0];
     [mkField 0x84 3 [0xA0;1;2] 0; mkField 0x9A 1 [8] 0]] (repeat 0xEE 24) =
  Ret (0, [0;0;0x12;0x34; 0;0;0;0;0;0;0x12;0x34; 0xA0;1; 0xA0;1;2;0; 0;0; 7; 0xEE;0xEE;0xEE], 21).
Proof. vm_compute. reflexivity. Qed.

(** C19.  Any DOL, any buffer: no access outside (the result is not [UB]), the
    reported length is inside the buffer, success exactly if the DOL is valid and
    its data fits, and then the reported length is the computed one. *)
Theorem C19_dol_build_bounded : forall buf sources data,
  bytes buf -> buf <> [] -> wf_sources sources -> sources <> [] -> data <> [] ->
  Zlen buf < 16777216 ->
  exists r data' dl, dol_build_data buf sources data = Ret (r, data', dl) /\
    length data' = length data /\ 0 <= dl <= Zlen data /\
    (r = 0 \/ r = 1 \/ r = -5) /\
    (r = 0 <-> exists es, dol buf es /\ dol_total es <= Zlen data) /\
    (r = 0 -> dol_compute_data_length buf = Ret dl).
Proof.
  intros buf sources data Hb Hn Hw Hs Hd Hm.
  destruct (build_any buf sources data Hb Hn Hw Hs Hd) as (r & d & dl & E & HL & Hdl & H).
  destruct (dol_length_ok buf Hb Hn Hm) as (q & Eq & Hq & _).
  exists r, d, dl. split; [exact E|]. split; [exact HL|]. split; [exact Hdl|].
  destruct H as [(-> & es & vs & Hdd & Ht & _ & _ & _ & ->)|[(-> & H)|(-> & H)]].
  - split; [auto|]. split; [split; eauto|]. intros _. rewrite Eq. f_equal. now apply Hq.
  - split; [auto|]. split; [|discriminate]. split; [discriminate|].
    intros (es & Hdd & Ht). apply H in Hdd. lia.
  - split; [auto|]. split; [|discriminate]. split; [discriminate|].
    intros (es & Hdd & Ht). exfalso. eapply H; eauto.
Qed.
Print Assumptions C19_dol_build_bounded.

Example C19_ex :
  dol_build_data [0x9A;3; 0x9F;0x37;4] [[mkField 0x9A 3 [1;2;3] 0]] [9;9;9;9;9;9;9] =
    Ret (0, [1;2;3;0;0;0;0], 7) /\
  dol_build_data [0x9A;3; 0x9F;0x37;4] [[mkField 0x9A 3 [1;2;3] 0]] [9;9;9;9;9;9] =
    Ret (1, [1;2;3;9;9;9], 3) /\
  dol_build_data [0x9A;3; 0x9F;0x37] [[mkField 0x9A 3 [1;2;3] 0]] [9;9;9;9] =
    Ret (-5, [1;2;3;9], 1).
Proof. vm_compute; auto. Qed.

(** C20.  The concatenation of COMPACT-TLV objects iterates to these objects. *)
Theorem C20_compact_tlv_objects : forall objs, Forall ctlv_ok objs ->
  let enc := flat_map (fun o => ctlv_enc (fst o) (snd o)) objs in
  ctlv_itr_all (S (length enc)) enc = Ret (map (fun o => mkCtlv (fst o) (Zlen (snd o)) (snd o)) objs, 0).
Proof. intros objs H enc. apply (ctlv_itr_objs objs H). subst enc; lia. Qed.
Print Assumptions C20_compact_tlv_objects.

(** C20.  Any buffer: the iteration ends without reading out of bounds; it visits
    the objects the buffer starts with, up to a rest that starts with no object;
    the rest is empty exactly if no error is reported. *)
Theorem C20_compact_tlv_any_buffer : forall buf, bytes buf ->
  exists objs rest e,
    ctlv_itr_all (S (length buf)) buf = Ret (map (fun o => mkCtlv (fst o) (Zlen (snd o)) (snd o)) objs, e) /\
    Forall ctlv_ok objs /\ e <= 0 /\
    buf = flat_map (fun o => ctlv_enc (fst o) (snd o)) objs ++ rest /\ (e = 0 <-> rest = []) /\
    (forall tag v rest', ctlv_ok (tag, v) -> rest <> ctlv_enc tag v ++ rest').
Proof. intros buf H. apply (ctlv_itr_any (S (length buf)) buf H). lia. Qed.
Print Assumptions C20_compact_tlv_any_buffer.

(** Historical octets 31 C0 73 D6 81 C0 of a card, and a truncated one. *)
Example C20_ex :
  ctlv_itr_all 9 [0x31;0xC0;0x73;0xD6;0x81;0xC0] = Ret ([mkCtlv 3 1 [0xC0]; mkCtlv 7 3 [0xD6;0x81;0xC0]], 0) /\
  ctlv_itr_all 9 [0x31;0xC0;0x73;0xD6;0x81] = Ret ([mkCtlv 3 1 [0xC0]], -3).
Proof. vm_compute; auto. Qed.
