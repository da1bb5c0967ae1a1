(** Specification of the terminal application layer: what the card is asked, in
    which order, and what is made of its answers. *)
From Verif Require Import Base BerModel BerSpec BerProofs TlvListModel TlvSpec FieldsModel FieldsSpec AppModel AppSpec TalModel.

(** ** Transports that deliver octets and never misbehave themselves. *)
Definition good_answer {T} (m : out (answer T)) : Prop :=
  match m with Ret a => n_ret a = 0 -> bytes (n_data a) /\ Zlen (n_data a) <= 256 | UB => False | NoFuel => True end.
Definition wf_transport {T} (x : transport T) : Prop :=
  (forall s name, bytes name -> good_answer (x_select x s name)) /\
  (forall s name, bytes name -> good_answer (x_next x s name)) /\
  (forall s sfi rec, is_byte sfi -> is_byte rec -> good_answer (x_read x s sfi rec)) /\
  (forall s d, match d with Some d => bytes d | None => True end -> good_answer (x_gpo x s d)).

(** ** Records of an AFL *)
(** [reads x s recs datas s']: the records [recs], pairs of SFI and record number, are
    requested one after the other and nothing else; each is answered 9000 with the
    octets in [datas]. *)
Inductive reads {T} (x : transport T) : T -> list (Z * Z) -> list (list Z) -> T -> Prop :=
| reads_nil s : reads x s [] [] s
| reads_cons s sfi rec a recs datas s' :
    x_read x s sfi rec = Ret a -> n_ret a = 0 -> n_sw a = 0x9000 -> reads x (n_st a) recs datas s' ->
    reads x s ((sfi, rec) :: recs) (n_data a :: datas) s'.

(** The records an AFL entry lists. *)
Definition listed (e : afl_entry) : list (Z * Z) :=
  map (fun i => (a_sfi e, a_first e + Z.of_nat i)) (seq 0 (Z.to_nat (a_last e - a_first e + 1))).

(** What is sent to read a record: READ RECORD, then GET RESPONSE and repetitions
    with another Le. *)
Definition record_sent (q : Z * Z) (g : list (list Z)) : Prop :=
  let cmd := [0; 0xB2; snd q; fst q * 8 + 4; 0] in
  exists more, g = cmd :: more /\ Forall (fun c => exists x, c = [0; 0xC0; 0; 0; x] \/ c = firstn 4 cmd ++ [x]) more.

(** A record and the fields it gives.  Files 1 to 10 hold one template 70 each; other
    files may hold anything, but only records starting with 70 are interpreted, and
    others ([oda] is true) invalidate offline data authentication. *)
Inductive record_gives (d : bool) (sfi : Z) : list Z -> list field -> bool -> Prop :=
| rg_template data ts : hd_error data = Some 0x70 -> forest d data ts ->
    (sfi <= 10 -> exists kids, ts = [Node 0x70 kids]) ->
    record_gives d sfi data (flat_map leaves ts) false
| rg_other b data : 10 < sfi -> b <> 0x70 -> record_gives d sfi (b :: data) [] true.
(** At most two length octets. *)
Definition short_header (data : list Z) : Prop :=
  exists flags v, encodes data 0x70 flags v /\ Zlen data <= Zlen v + 3.

(** The records of several requests. *)
Inductive records_give (d : bool) : list (Z * Z) -> list (list Z) -> list field -> bool -> Prop :=
| rs_nil : records_give d [] [] [] false
| rs_cons sfi rec recs data datas fs oda fs' oda' :
    record_gives d sfi data fs oda -> records_give d recs datas fs' oda' ->
    records_give d ((sfi, rec) :: recs) (data :: datas) (fs ++ fs') (oda || oda').

(** A record request that fails, and with which code. *)
Inductive record_fails {T} (sfi : Z) (a : answer T) : Z -> Prop :=
| rf_ttl : n_ret a <> 0 -> record_fails sfi a TAL_TTL_FAILURE
| rf_status : n_ret a = 0 -> n_sw a <> 0x9000 -> record_fails sfi a TAL_READ_RECORD_FAILED
| rf_first b data : n_ret a = 0 -> n_sw a = 0x9000 -> sfi <= 10 -> n_data a = b :: data -> b <> 0x70 ->
    record_fails sfi a TAL_READ_RECORD_INVALID
| rf_format r : n_ret a = 0 -> n_sw a = 0x9000 -> hd_error (n_data a) = Some 0x70 ->
    r = TAL_READ_RECORD_INVALID /\ sfi <= 10 \/ r = TAL_READ_RECORD_PARSE_FAILED ->
    (forall fs oda, record_gives true sfi (n_data a) fs oda -> (sfi <= 10 -> short_header (n_data a)) -> False) ->
    record_fails sfi a r.

(** ** The payment system directory *)
(** Records [rec], [rec + 1], ... are requested until one is answered 6A83; the
    answers before that are [recs], pairs of status and data. *)
Inductive directory {T} (x : transport T) (sfi : Z) : T -> Z -> list (Z * list Z) -> T -> Prop :=
| dir_end s rec a : x_read x s sfi rec = Ret a -> n_ret a = 0 -> n_sw a = 0x6A83 -> directory x sfi s rec [] (n_st a)
| dir_more s rec a recs s' : x_read x s sfi rec = Ret a -> n_ret a = 0 -> n_sw a <> 0x6A83 ->
    directory x sfi (n_st a) ((rec + 1) mod 256) recs s' ->
    directory x sfi s rec ((n_sw a, n_data a) :: recs) s'.
(** The same, but ending with a failure of the transport. *)
Inductive directory_fails {T} (x : transport T) (sfi : Z) : T -> Z -> nat -> T -> Prop :=
| dirf_end s rec a : x_read x s sfi rec = Ret a -> n_ret a <> 0 -> directory_fails x sfi s rec 0 (n_st a)
| dirf_more s rec a n s' : x_read x s sfi rec = Ret a -> n_ret a = 0 -> n_sw a <> 0x6A83 ->
    directory_fails x sfi (n_st a) ((rec + 1) mod 256) n s' -> directory_fails x sfi s rec (S n) s'.

(** The applications of a directory entry (an object of the record's template): none,
    or the one created from a template 61 (see C63) if its AID is supported. *)
Inductive entry_apps (junk : list Z) (pse supported : list field) (t : ber_tlv) : list emvapp -> Prop :=
| ea_tag : b_tag t <> 0x61 -> entry_apps junk pse supported t []
| ea_invalid : b_tag t = 0x61 -> app_create_from_pse junk pse (b_val t) = Ret None -> entry_apps junk pse supported t []
| ea_other a : b_tag t = 0x61 -> app_create_from_pse junk pse (b_val t) = Ret (Some a) ->
    (forall g, In g supported -> ~ aid_matches (a_aid a) g) -> entry_apps junk pse supported t []
| ea_app a g : b_tag t = 0x61 -> app_create_from_pse junk pse (b_val t) = Ret (Some a) ->
    In g supported -> aid_matches (a_aid a) g -> entry_apps junk pse supported t [a].
(** The applications of a record: those of the objects in its template 70, as far as
    they are well formed; none if there is no template or the status is not 9000. *)
Inductive record_apps (junk : list Z) (pse supported : list field) : Z * list Z -> list emvapp -> Prop :=
| ra_template p t trail ps ts rest ls :
    piece p t -> b_tag t = 0x70 -> b_val t = concat ps ++ rest -> Forall2 piece ps ts ->
    (forall q tag flags v post, encodes q tag flags v -> rest <> q ++ post) ->
    Forall2 (entry_apps junk pse supported) ts ls ->
    record_apps junk pse supported (0x9000, p ++ trail) (concat ls)
| ra_none data : (forall q flags v post, encodes q 0x70 flags v -> data <> q ++ post) ->
    record_apps junk pse supported (0x9000, data) []
| ra_status sw data : sw <> 0x9000 -> record_apps junk pse supported (sw, data) [].

(** What comes of requesting [recs]: the records up to the first that fails are read
    and give their fields; [l] is the list before. *)
Definition outcome {T} (x : transport T) (s : T) (recs : list (Z * Z)) (l : list field) (res : Z * list field * T) : Prop :=
  exists done todo datas fs oda s1, recs = done ++ todo /\ reads x s done datas s1 /\ records_give false done datas fs oda /\
    ((todo = [] /\ res = (if oda then TAL_ODA_RECORD_INVALID else 0, l ++ fs, s1)) \/
     (exists sfi rec rest a r fs', todo = (sfi, rec) :: rest /\ x_read x s1 sfi rec = Ret a /\ record_fails sfi a r /\
        res = (r, l ++ fs ++ fs', n_st a) /\ Forall (field_of (n_data a)) fs')).

(** ** SELECT *)
(** The card answered [data] with 9000 when the name was selected. *)
Definition selected {T} (x : transport T) (name data : list Z) : Prop :=
  exists s a, (x_select x s name = Ret a \/ x_next x s name = Ret a) /\ n_ret a = 0 /\ n_sw a = 0x9000 /\ n_data a = data.
(** A card whose DF names start with the name selected. *)
Definition honest {T} (x : transport T) (junk : list Z) : Prop :=
  forall name data a, selected x name data -> app_create_from_fci junk data = Ret (Some a) ->
    exists rest, f_val (a_aid a) = name ++ rest.

(** Status words of SELECT for an application and the results (enum emv_tal_result_t). *)
Definition select_codes : list (Z * Z) := [(0x6A81, TAL_CARD_BLOCKED); (0x6A82, TAL_APP_NOT_FOUND); (0x6283, TAL_APP_BLOCKED)].
Definition pse_codes : list (Z * Z) := [(0x6A81, TAL_CARD_BLOCKED); (0x6A82, TAL_PSE_NOT_FOUND); (0x6283, TAL_PSE_BLOCKED)].
Inductive code_for (codes : list (Z * Z)) (other : Z) (sw : Z) : Z -> Prop :=
| cf_listed r : In (sw, r) codes -> code_for codes other sw r
| cf_other : ~ In sw (map fst codes) -> code_for codes other sw other.

(** ** Responses to GET PROCESSING OPTIONS *)
(** [gpo_fields d resp fs]: the response has format 1 or 2 and carries the fields. *)
Inductive gpo_fields (d : bool) (resp : list Z) : list field -> Prop :=
| gpo_1 enc flags aip afl trail : resp = enc ++ trail -> encodes enc 0x80 flags (aip ++ afl) ->
    length aip = 2%nat -> afl <> [] -> Zlen afl mod 4 = 0 ->
    gpo_fields d resp [mkField 0x82 2 aip 0; mkField 0x94 (Zlen afl) afl 0]
| gpo_2 enc flags v ts trail : resp = enc ++ trail -> encodes enc 0x77 flags v ->
    forest d v ts -> gpo_fields d resp (flat_map leaves ts)
| gpo_2_indefinite enc t ts trail : d = false -> resp = enc ++ trail -> piece enc t -> b_tag t = 0x77 ->
    forest d (b_val t) ts -> gpo_fields d resp (flat_map leaves ts).
