(** What is printed for an answer to reset (C124). *)
From Coq Require Import String.
From Verif Require Import Base BaseLemmas DolSpec TlvSpec StrModel StrSpec FlagsSpec CapduSpec AtrModel AtrSpec AtrTextModel AtrTextSpec AtrTextProps PrintModel PrintSpec StatusSpec AtrPrintSpec AtrPrintProofs.
Open Scope string_scope.
Open Scope Z_scope.
Open Scope list_scope.
Notation length := List.length.

(** For all accepted ATRs whose layout is given, all octets of the ATR are printed with their texts, in
    order; the texts of T0 and the interface bytes are those of C113 - C116.  [beyond] is what follows the
    historical bytes in memory and [str] the initial contents of the local arrays. *)
Theorem C124_atr_partial atr x ts t0 gs hist tck rest beyond str :
  bytes atr -> ~ td4 atr -> atr_parse atr = Ret (inr x) -> layout atr ts t0 gs hist tck rest -> tck_valid t0 gs hist tck -> printable_hist hist -> length str = 1024%nat ->
  let text m s := exists new, m = Ret (true, new) /\ cstring new = Some s in
  exists s0 sa sb sc sd h st txt, text (T0_get_string x str) s0 /\
    (forall i, (1 <= i <= 4)%nat -> text (TAi_get_string x i str) (sa i) /\ text (TBi_get_string x i str) (sb i) /\ text (TCi_get_string x i str) (sc i) /\
      (byte_of gD i gs <> None -> text (TDi_get_string x i str) (sd i))) /\
    hist_text hist h /\ status_spec hist st /\ status_text st txt /\
    print_atr x beyond str = Ret (atr_text atr ts t0 gs tck s0 sa sb sc sd h txt).
Proof. intros B N E Ly Vt Hp Ls. cbn zeta. apply (atr_print atr x ts t0 gs hist tck rest beyond str B N E Ly Vt Hp). rewrite Ls. lia. Qed.

Definition page_of (c : Z) : list Z := repeat c 1023 ++ [0].
Definition printed (atr beyond str : list Z) : option (list Z) := match atr_parse atr with Ret (inr x) => match print_atr x beyond str with Ret s => Some s | _ => None end | _ => None end.
Fixpoint all_lines (l : list string) : list Z := match l with [] => [] | s :: l => lit s ++ nl ++ all_lines l end.
Example C124_ex : printed [0x3B; 0x06; 0x00; 0x31; 0xC0; 0x07; 0x90; 0x00] [] (page_of 65) = Some (all_lines
  ["ATR: 3B060031C0079000";
   "  TS  = 0x3B: Direct convention";
   "  T0  = 0x06: Y1=; K=6";
   "  ----";
   "  TA1 absent: Fi=372; Di=1; 372 cycles/ETU @ max 5.0MHz; max 13440 bit/s";
   "  TB1 absent: Vpp is not connected";
   "  TC1 absent: N=0; GT=12";
   "  ----";
   "  TA2 absent: Negotiable mode";
   "  TB2 absent: Vpp is not connected";
   "  TC2 absent: WI=10; WT=9600";
   "  ----";
   "  T1  = 0x00: COMPACT-TLV followed by mandatory status indicator";
   "  Card service data (0x3): [1] C0";
   "    - Application selection: by full DF name";
   "    - Application selection: by partial DF name";
   "    - EF.DIR and EF.ATR access services: by READ RECORD(S) command (record structure)";
   "    - Card with MF";
   "  ----";
   "  LCS = 07: Operational state (activated)";
   "  SW  = 9000: (Normal)";
   "  ----";
   "  TCK = 0x00"]).
Proof. vm_compute. reflexivity. Qed.

(** Card capabilities of one octet 0 (nothing to describe): what was in the array before is printed. *)
Theorem C124_uninitialised_refuted : exists atr x hist str1 str2 s1 s2, bytes atr /\ atr_parse atr = Ret (inr x) /\ layout atr 0x3B (Zlen hist) [mkGroup None None None None] hist [] [] /\
  hist = [0x80; 0x71; 0x00] /\ length str1 = 1024%nat /\ length str2 = 1024%nat /\
  print_atr x [] str1 = Ret s1 /\ print_atr x [] str2 = Ret s2 /\ s1 <> s2.
Proof.
  pose (atr := [0x3B; 0x03; 0x80; 0x71; 0x00]).
  destruct (atr_parse atr) as [[e|x]| |] eqn:E; try (vm_compute in E; discriminate).
  exists atr, x, [0x80; 0x71; 0x00], (page_of 65), (repeat 0 1024). vm_compute in E. injection E as <-.
  eexists. eexists. split; [repeat constructor; unfold is_byte; lia|]. split; [vm_compute; reflexivity|].
  split; [split; [reflexivity|]; split; [eapply groups_last; [group_match|reflexivity]|reflexivity]|]. split; [reflexivity|]. split; [vm_compute; reflexivity|]. split; [vm_compute; reflexivity|].
  split; [vm_compute; reflexivity|]. split; [vm_compute; reflexivity|]. intros H. apply (f_equal (fun s => (length s <? 1000)%nat)) in H. vm_compute in H. discriminate.
Qed.
(** Card service data of length 0: the octet that follows in the ATR (TCK) is described, so that the texts
    for the same historical bytes differ. *)
Theorem C124_beyond_refuted : exists atr1 atr2 x1 x2 ts t01 t02 gs1 gs2 hist tck1 tck2 b1 b2 s1 s2,
  bytes atr1 /\ bytes atr2 /\ atr_parse atr1 = Ret (inr x1) /\ atr_parse atr2 = Ret (inr x2) /\ layout atr1 ts t01 gs1 hist tck1 [] /\ layout atr2 ts t02 gs2 hist tck2 [] /\
  i_atr x1 = firstn (length atr1 - 1) atr1 ++ b1 /\ i_atr x2 = firstn (length atr2 - 1) atr2 ++ b2 /\
  print_historical x1 b1 (page_of 65) = Ret s1 /\ print_historical x2 b2 (page_of 65) = Ret s2 /\ s1 <> s2.
Proof.
  pose (atr1 := [0x3B; 0x82; 0x01; 0x80; 0x30; 0x33]). pose (atr2 := [0x3B; 0x92; 0x11; 0x01; 0x80; 0x30; 0x32]).
  destruct (atr_parse atr1) as [[e|x1]| |] eqn:E1; try (vm_compute in E1; discriminate). destruct (atr_parse atr2) as [[e|x2]| |] eqn:E2; try (vm_compute in E2; discriminate).
  exists atr1, atr2, x1, x2, 0x3B, 0x82, 0x92, [mkGroup None None None (Some 0x01); mkGroup None None None None], [mkGroup (Some 0x11) None None (Some 0x01); mkGroup None None None None], [0x80; 0x30], [0x33], [0x32],
    (0x33 :: repeat 0 27), (0x32 :: repeat 0 26). vm_compute in E1, E2. injection E1 as <-. injection E2 as <-.
  eexists. eexists. split; [repeat constructor; unfold is_byte; lia|]. split; [repeat constructor; unfold is_byte; lia|]. split; [vm_compute; reflexivity|]. split; [vm_compute; reflexivity|].
  split; [split; [reflexivity|]; split; [eapply groups_more; [group_match|reflexivity|]; eapply groups_last; [group_match|reflexivity]|reflexivity]|].
  split; [split; [reflexivity|]; split; [eapply groups_more; [group_match|reflexivity|]; eapply groups_last; [group_match|reflexivity]|reflexivity]|].
  split; [vm_compute; reflexivity|]. split; [vm_compute; reflexivity|]. split; [vm_compute; reflexivity|]. split; [vm_compute; reflexivity|]. discriminate.
Qed.
Print Assumptions C124_atr_partial. Print Assumptions C124_uninitialised_refuted. Print Assumptions C124_beyond_refuted.
