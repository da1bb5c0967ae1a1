(** C171: what is told while the directory of the card is read.  Statements: properties.jsonl. *)
From Coq Require Import String.
From Verif Require Import Base BaseLemmas BerModel BerSpec BerProofs TlvListModel TlvModel TlvSpec TlvProofs DolModel DolSpec DolProofs TtlModel FieldsModel AppModel AppSpec AppProofs
  TalModel TalSpec TalProofs StrModel StrSpec CapduModel PrintModel PrintProofs DirModel DirSpec DirProofs.
Open Scope string_scope.
Open Scope Z_scope.
Open Scope list_scope.
Notation length := List.length.

(** The messages change nothing: result, applications and state are those of C28. *)
Theorem C171_in_step T (x : transport T) junk jt fuel s supported apps :
  bind (read_pse_n x junk jt fuel s supported apps) (fun v => Ret (fst v)) = read_pse x junk fuel s supported apps.
Proof.
  rewrite <- (read_silent x junk jt). unfold silent. destruct (read_pse_n x junk jt fuel s supported apps) as [[v n]| |]; reflexivity.
Qed.

(** Whatever the card answers, the last message tells the result, and no two results have the same. *)
Theorem C171_last_words T (x : transport T) junk jt fuel s supported apps r apps' s' n :
  read_pse_n x junk jt fuel s supported apps = Ret (r, apps', s', n) ->
  exists n0 m, n = n0 ++ [m] /\ In (r, m) last_words /\ forall r', In (r', m) last_words -> r' = r.
Proof.
  intros E. destruct (read_last x junk jt _ _ _ _ _ _ _ _ E) as (n0 & m & -> & I). exists n0, m. split; [reflexivity|]. split; [exact I|].
  intros r' I'. cbn [last_words In] in I, I'.
  repeat match goal with H : _ \/ _ |- _ => destruct H as [H|H] end; try contradiction; try congruence;
    exfalso; assert (Q : forall (a : Z * note) b, a = b -> snd a = snd b) by (intros; congruence); apply Q in I; apply Q in I'; cbn [snd] in I, I'; rewrite <- I in I'; discriminate.
Qed.

(** The messages about the records tell of each record and of each object in it, in order: whether it gives an
    application and, if not, why; there are as many announcements as applications.  What is missing: the text for a
    record that is not a template 70 is [anything]. *)
Theorem C171_records_partial T (x : transport T) : wf_transport x -> forall junk, length junk = 17%nat ->
  forall jt fuel s supported apps a r apps' s' n, Forall wf_field supported ->
  x_select x s EMV_PSE = Ret a -> n_ret a = 0 -> n_sw a = 0x9000 ->
  read_pse_n x junk jt fuel s supported apps = Ret (r, apps', s', n) ->
  let start := [Info (lit "SELECT 1PAY.SYS.DDF01"); Data (lit "FCI") (n_data a)] in
  (exists m, (r = TAL_PSE_SFI_NOT_FOUND \/ r = TAL_PSE_SFI_INVALID) /\ n = start ++ [m] /\ apps' = []) \/
  exists pse f sfi recs ls ns, Forall (field_of (n_data a)) pse /\ first_with 0x88 pse f /\ f_val f = [sfi] /\
    records_told anything junk pse supported recs ls ns /\ length (filter announces ns) = length ls /\
    (r = 0 /\ directory x sfi (n_st a) 1 recs s' /\ apps' = apps ++ ls /\ n = start ++ ns ++ [Info (lit "No more PSE records")] \/
     r = TAL_TTL_FAILURE /\ directory_fails x sfi (n_st a) 1 (length recs) s' /\ apps' = [] /\ n = start ++ ns ++ [Err (lit "TTL failure")]).
Proof.
  intros W junk Lj jt fuel s supported apps a r apps' s' n Ws E R0 S9 En start.
  pose proof W as (Wsel & _). specialize (Wsel s EMV_PSE pse_bytes). rewrite E in Wsel. destruct (Wsel R0) as [Bd Ld].
  pose proof (small256 _ Ld) as Sd. destruct (parse_any (n_data a) [] Bd Sd) as (r0 & pse & Ep & Hr & Ff & _). cbn [app] in Ep.
  assert (Wp : Forall wf_field pse) by (eapply Forall_impl; [|exact Ff]; intros f; now apply field_of_wf).
  assert (Rn : r0 <? 0 = false) by (apply Z.ltb_ge; destruct Hr; lia).
  unfold read_pse_n in En. cbv zeta in En. rewrite E in En. cbn [bind] in En. rewrite R0, S9 in En. cbn [Z.eqb Pos.eqb negb] in En. rewrite Ep in En. cbn [bind] in En. rewrite Rn in En.
  change ([Info (lit "SELECT " ++ EMV_PSE)] ++ [Data (lit "FCI") (n_data a)]) with start in En.
  destruct (find_tag 0x88 pse) as [f|] eqn:Ef.
  2:{ left. cbn [bind] in En. change (TAL_PSE_SFI_NOT_FOUND =? 0) with false in En. cbv iota in En. assert (r = TAL_PSE_SFI_NOT_FOUND /\ apps' = [] /\ n = start ++ [Err (lit "Failed to find SFI for PSE records")]) as (-> & -> & ->) by (repeat split; congruence).
      eexists. split; [auto|]. split; reflexivity. }
  apply find_tag_spec in Ef. assert (Wf : wf_field f) by (pose proof (first_with_in _ _ _ Ef); rewrite Forall_forall in Wp; auto).
  destruct Wf as (Lf & Bf & _). destruct (Z.eqb_spec (f_len f) 1) as [L1|L1]; cbn [negb] in En.
  2:{ left. cbn [bind] in En. change (TAL_PSE_SFI_INVALID =? 0) with false in En. cbv iota in En. assert (r = TAL_PSE_SFI_INVALID /\ apps' = [] /\ n = start ++ [Err (lit "Invalid SFI length or value for PSE records")]) as (-> & -> & ->) by (repeat split; congruence).
      eexists. split; [auto|]. split; reflexivity. }
  right. assert (exists sfi, f_val f = [sfi]) as (sfi & Vf).
  { rewrite Lf in L1. unfold Zlen in L1. destruct (f_val f) as [|b [|b2 l]]; cbn [length] in L1; try lia. eauto. }
  rewrite Vf in En, Bf. change (rd [sfi] 0) with (Ret sfi) in En. cbn [bind] in En. assert (Bs : is_byte sfi) by (now inversion Bf).
  assert (B1 : is_byte 1) by (unfold is_byte; lia).
  destruct (pse_loop_n _ _ _ _ _ _ _ _ _ _) as [[[[r' a1] s2] n']| |] eqn:El; cbn [bind] in En; try discriminate.
  assert (r = r' /\ apps' = (if r' =? 0 then a1 else []) /\ s' = s2 /\ n = n') as (-> & -> & -> & ->) by (repeat split; congruence).
  destruct (loop_told x W junk Lj jt supported Ws pse sfi Wp Bs _ _ _ _ _ _ _ _ _ B1 El) as [(-> & recs & ls & ns & K1 & K2 & -> & ->)|(-> & recs & ls & ns & K1 & K2 & ->)];
    exists pse, f, sfi, recs, ls, ns; (split; [exact Ff|]); (split; [exact Ef|]); (split; [exact Vf|]); (split; [exact K2|]); (split; [eapply records_count; exact K2|]).
  - left. auto.
  - right. auto.
Qed.

(** But the message about a record that is not a template 70 does not name its tag: the number printed is that of a
    variable which has no value yet. *)
Definition ex_dir (records : list (list Z)) : transport unit :=
  mkTr (fun _ _ => Ret (mkAns 0 [0x6F; 5; 0xA5; 3; 0x88; 1; 1] 0x9000 tt)) (fun _ _ => Ret (mkAns 0 [] 0x6A82 tt))
       (fun _ _ rec => Ret (match nth_error records (Z.to_nat rec - 1) with Some d => mkAns 0 d 0x9000 tt | None => mkAns 0 [] 0x6A83 tt end))
       (fun _ _ => Ret (mkAns 0 [] 0x6985 tt)).
Definition notes_of {T} (m : out (Z * list emvapp * T * list note)) : list note := match m with Ret (_, n) => n | _ => [] end.
Theorem C171_tag_refuted : exists data jt n,
  data = [0x77; 0] /\
  notes_of (read_pse_n (ex_dir [data]) (repeat 0 17) jt 9 tt [] []) = n /\
  n <> notes_of (read_pse_n (ex_dir [data]) (repeat 0 17) (fun _ => 0) 9 tt [] []) /\
  In (Err (lit "Unexpected data element 0x70 in PSE AEF record")) n /\
  ~ In (Err (lit "Unexpected data element 0x" ++ hex_text [0x77] ++ lit " in PSE AEF record")) n.
Proof.
  exists [0x77; 0], (fun _ => 0x70). eexists. split; [reflexivity|]. split; [vm_compute; reflexivity|].
  split; [vm_compute; discriminate|]. split; [vm_compute; tauto|]. vm_compute. intuition discriminate.
Qed.

Example C171_ex : exists apps s n,
  read_pse_n (ex_dir [[0x70; 13; 0x61; 7; 0x4F; 5; 0xA0; 0; 0; 0; 3; 0x9F; 0x38; 0; 0]; [0x70; 9; 0x61; 7; 0x4F; 5; 0xA0; 0; 0; 0; 4]; [5]]) (repeat 0 17) (fun _ => 0) 9 tt
    [mkField 0x9F06 5 [0xA0; 0; 0; 0; 3] 0] [] = Ret (0, apps, s, n) /\ length apps = 1%nat /\
  map (fun m => match m with Data t _ => t | Err t => t | Info t => t end) n =
    map lit ["SELECT 1PAY.SYS.DDF01"; "FCI"; "AEF"; "Application is supported"; "Unexpected data element 0x9F38 in AEF template"; "AEF"; "Application is not supported";
             "AEF"; "Failed to parse PSE AEF record"; "Invalid PSE AEF record"; "No more PSE records"].
Proof. do 3 eexists. split; [vm_compute; reflexivity|]. split; vm_compute; reflexivity. Qed.

Print Assumptions C171_in_step.
Print Assumptions C171_last_words.
Print Assumptions C171_records_partial.
Print Assumptions C171_tag_refuted.
