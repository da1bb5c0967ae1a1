(** What the messages about selecting and starting an application are to tell. *)
From Coq Require Import String.
From Verif Require Import Base BaseLemmas TlvListModel TlvModel TlvSpec FieldsModel AppModel TalModel StrModel StrSpec FlagsSpec DirModel RecSpec.
Open Scope string_scope.
Open Scope Z_scope.
Open Scope list_scope.
Notation length := List.length.

(** A transport that also notes the names that are selected, and whether as first (true) or next. *)
Definition overheard {T} (x : transport T) : transport (T * list (bool * list Z)) :=
  let keep log (m : out (answer T)) : out (answer (T * list (bool * list Z))) :=
    match m with Ret a => Ret (mkAns (n_ret a) (n_data a) (n_sw a) (n_st a, log)) | UB => UB | NoFuel => NoFuel end in
  mkTr (fun s name => keep (snd s ++ [(true, name)]) (x_select x (fst s) name)) (fun s name => keep (snd s ++ [(false, name)]) (x_next x (fst s) name))
       (fun s sfi rec => keep (snd s) (x_read x (fst s) sfi rec)) (fun s d => keep (snd s) (x_gpo x (fst s) d)).

(** A status word, as four hexadecimal digits. *)
Definition status_text (t : list Z) : Prop := exists a b, t = hex_text [a; b] /\ is_byte a /\ is_byte b.
Definition asked (q : bool * list Z) : note := Data (if fst q then lit "SELECT application" else lit "SELECT next application") (snd q).

(** What is told of one SELECT: [l] are the applications it adds; the code is 0 if the search goes on. *)
Inductive told (junk : list Z) (q : bool * list Z) : Z -> list emvapp -> list note -> Prop :=
| to_ttl : told junk q TAL_TTL_FAILURE [] [asked q; Err (lit "TTL failure")]
| to_blocked : fst q = true -> told junk q TAL_CARD_BLOCKED [] [asked q; Err (lit "Card blocked or SELECT not supported")]
| to_absent : told junk q 0 [] [asked q; Info (lit "Application not found")]
| to_status t : status_text t -> t <> hex_text [0x90; 0] -> t <> hex_text [0x62; 0x83] -> t <> hex_text [0x6A; 0x82] ->
    told junk q 0 [] [asked q; Err (lit "Unexpected SELECT status 0x" ++ t)]
| to_invalid fci : app_create_from_fci junk fci = Ret None -> told junk q 0 [] [asked q; Data (lit "FCI") fci]
| to_exact fci a : app_create_from_fci junk fci = Ret (Some a) -> Zlen (snd q) = f_len (a_aid a) ->
    told junk q 0 [a] [asked q; Data (lit "FCI") fci; Info (lit "Application is supported: exact match")]
| to_partial fci a : app_create_from_fci junk fci = Ret (Some a) -> Zlen (snd q) <> f_len (a_aid a) ->
    told junk q 0 [a] [asked q; Data (lit "FCI") fci; Info (lit "Application is supported: partial match")]
| to_off fci a : app_create_from_fci junk fci = Ret (Some a) ->
    told junk q 0 [] [asked q; Data (lit "FCI") fci; Info (lit "Application is blocked")]
| to_forbidden fci a : app_create_from_fci junk fci = Ret (Some a) -> Zlen (snd q) <> f_len (a_aid a) ->
    told junk q 0 [] [asked q; Data (lit "FCI") fci; Info (lit "Application is not supported: partial match not allowed")].
(** What is told of a search. *)
Inductive search_told (junk : list Z) : Z -> list (bool * list Z) -> list emvapp -> list note -> Prop :=
| st_end : search_told junk 0 [] [] []
| st_stop r q n : r < 0 -> told junk q r [] n -> search_told junk r [q] [] n
| st_more r q l n qs ls ns : told junk q 0 l n -> search_told junk r qs ls ns -> search_told junk r (q :: qs) (l ++ ls) (n ++ ns).
Definition supported_note : note -> bool := starts (lit "Application is supported").

(** The results of emv_tal_select_app and the message each ends with. *)
Inductive selected_told : Z -> note -> Prop :=
| sl_ok fci : selected_told 0 (Data (lit "FCI") fci)
| sl_ttl : selected_told TAL_TTL_FAILURE (Err (lit "TTL failure"))
| sl_blocked : selected_told TAL_CARD_BLOCKED (Err (lit "Card blocked or SELECT not supported"))
| sl_absent : selected_told TAL_APP_NOT_FOUND (Info (lit "Application not found"))
| sl_off : selected_told TAL_APP_BLOCKED (Info (lit "Application is blocked"))
| sl_status t : status_text t -> selected_told TAL_APP_SELECTION_FAILED (Err (lit "SW1SW2=0x" ++ t ++ [10]))
| sl_other : selected_told TAL_APP_SELECTION_FAILED (Err (lit "DF Name mismatch"))
| sl_parse : selected_told TAL_APP_FCI_PARSE_FAILED (Err (lit "Failed to parse application FCI")).
(** The same for emv_tal_get_processing_options. *)
Inductive started_told : Z -> note -> Prop :=
| sg_one afl : started_told 0 (Data (lit "AFL") afl)
| sg_two resp : started_told 0 (Data (lit "GPO response") resp)
| sg_ttl : started_told TAL_TTL_FAILURE (Err (lit "TTL failure"))
| sg_cond : started_told TAL_GPO_CONDITIONS_NOT_SATISFIED (Info (lit "Conditions of use not satisfied"))
| sg_status t : status_text t -> started_told TAL_GPO_FAILED (Err (lit "SW1SW2=0x" ++ t))
| sg_parse : started_told TAL_GPO_PARSE_FAILED (Err (lit "Failed to parse GPO response"))
| sg_length len : 0 <= len < 256 -> started_told TAL_GPO_PARSE_FAILED (Err (lit "Invalid GPO response format 1 length of " ++ decimal_text len))
| sg_format : started_told TAL_GPO_PARSE_FAILED (Err (lit "Failed to parse GPO response format 2"))
| sg_aip : started_told TAL_GPO_FIELD_NOT_FOUND (Err (lit "AIP not found in GPO response"))
| sg_afl : started_told TAL_GPO_FIELD_NOT_FOUND (Err (lit "AFL not found in GPO response")).
(** Status words are of type uint16_t. *)
Definition words {T} (x : transport T) : Prop :=
  (forall s name a, x_select x s name = Ret a -> 0 <= n_sw a < 65536) /\ (forall s name a, x_next x s name = Ret a -> 0 <= n_sw a < 65536) /\
  (forall s d a, x_gpo x s d = Ret a -> 0 <= n_sw a < 65536).
