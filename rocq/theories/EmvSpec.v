(** Specification of the transaction functions. *)
From Verif Require Import Base TlvListModel DolSpec AppModel AppSpec TalModel TalSpec EmvModel.

(** An application list in order of priority: 1 to 15 ascending, then those without. *)
Definition prio_before (a b : emvapp) : Prop := a_prio b = 0 \/ (a_prio a <> 0 /\ a_prio a <= a_prio b).

(** Some configured AID matches. *)
Definition supported_by (supported : list field) (a : emvapp) : Prop :=
  exists g, In g supported /\ aid_matches (a_aid a) g.

(** No two fields with the same tag. *)
Definition no_duplicates (l : list field) : Prop := NoDup (map f_tag l).
(** EMV Book 3, 7.2: expiry date, PAN, CDOL1, CDOL2. *)
Definition mandatory : list Z := [0x5F24; 0x5A; 0x8C; 0x8D].

(** The data of GET PROCESSING OPTIONS: nothing without PDOL, otherwise the command
    template 83 with BER length and the values of the PDOL's entries. *)
Definition ber_length (n : Z) : list Z := if n <? 128 then [n] else [0x81; n].
Inductive gpo_command_data (sources : list (list field)) (fields : list field) : option (list Z) -> Prop :=
| gc_none : absent 0x9F38 fields -> gpo_command_data sources fields None
| gc_pdol f es vs : first_with 0x9F38 fields f -> dol (f_val f) es -> es <> [] ->
    Forall2 (entry_data sources) es vs -> Zlen (concat vs) <= 252 ->
    gpo_command_data sources fields (Some (0x83 :: ber_length (Zlen (concat vs)) ++ concat vs)).

(** The terminal data fields created for a transaction. *)
Definition terminal_data (pos : Z) (aid : list Z) : list field :=
  [mkField 0x9F39 1 [pos] 0; mkField 0x9F06 (Zlen aid) aid 0; mkField 0x9B 2 [0;0] 0; mkField 0x95 5 [0;0;0;0;0] 0].
(** Outcomes for the result codes of selection and GET PROCESSING OPTIONS. *)
Definition gpo_outcome (r : Z) : Z :=
  if r =? 13 then GPO_NOT_ACCEPTED else if (r =? -1) || (r =? -2) then EMV_INTERNAL else CARD_ERROR.

(** The outcome of a selection that failed: try again while candidates are left. *)
Inductive try_next : list emvapp -> Z -> Prop :=
| tn_none : try_next [] NOT_ACCEPTED
| tn_more a l : try_next (a :: l) TRY_AGAIN.

(** ** What the card is sent, for readers that accept whole commands *)
(** Commands satisfying [C], each followed by any number of GET RESPONSE commands and
    repetitions of its header with another Le. *)
Inductive sent (C : list Z -> Prop) : list (list Z) -> Prop :=
| sent_nil : sent C []
| sent_cmd cmd more rest : C cmd ->
    Forall (fun c => exists le, c = [0x00; 0xC0; 0x00; 0x00; le] \/ c = firstn 4 cmd ++ [le]) more ->
    sent C rest -> sent C (cmd :: more ++ rest).
(** SELECT by name, first or next occurrence. *)
Definition select_cmd (p2 : Z) (name : list Z) : list Z := [0x00; 0xA4; 0x04; p2; Zlen name] ++ name ++ [0x00].
(** READ RECORD with a record number in a file. *)
Definition read_record_cmd (c : list Z) : Prop :=
  exists sfi rec, 1 <= sfi <= 30 /\ 0 <= rec <= 255 /\ c = [0x00; 0xB2; rec; sfi * 8 + 4; 0x00].
(** "1PAY.SYS.DDF01" *)
Definition pse_name : list Z := [0x31;0x50;0x41;0x59;0x2E;0x53;0x59;0x53;0x2E;0x44;0x44;0x46;0x30;0x31].
(** Building the candidate list: the directory, its records, and the names. *)
Definition candidate_cmd (names : list (list Z)) (c : list Z) : Prop :=
  read_record_cmd c \/ c = select_cmd 0 pse_name \/ exists n p2, In n names /\ (p2 = 0 \/ p2 = 2) /\ c = select_cmd p2 n.
