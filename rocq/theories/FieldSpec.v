(** Fields that are text, and further response codes, independent of the model. *)
From Coq Require Import String.
From Verif Require Import Base.
Open Scope string_scope.
Open Scope Z_scope.
Open Scope list_scope.

(** The characters of the formats an and ans (EMV Book 3, 4.3); ans with letters, digits and spaces only, and
    any octets for names in another character set. *)
Inductive charset := Alphanumeric | AlphanumericSpace | Common | AnyChar.
Definition allowed (s : charset) (c : Z) : Prop :=
  match s with
  | Alphanumeric => 48 <= c <= 57 \/ 65 <= c <= 90 \/ 97 <= c <= 122
  | AlphanumericSpace => 48 <= c <= 57 \/ (65 <= c <= 90 \/ 97 <= c <= 122) \/ c = 32
  | Common => 32 <= c <= 127
  | AnyChar => True
  end.
(** The fields of EMV Book 3, Annex A that are text, with their greatest length if they have one. *)
Definition text_fields : list (Z * charset * option nat) :=
  [ (0x50, AlphanumericSpace, Some 16%nat);      (* Application Label *)
    (0x56, Common, Some 76%nat);                 (* Track 1 Data *)
    (0x89, Common, Some 6%nat);                  (* Authorisation Code *)
    (0x5F20, Common, Some 26%nat);               (* Cardholder Name *)
    (0x5F50, Common, None);                      (* Issuer URL *)
    (0x5F53, Alphanumeric, Some 34%nat);         (* IBAN *)
    (0x5F54, Alphanumeric, Some 11%nat);         (* BIC *)
    (0x9F0B, Common, Some 45%nat);               (* Cardholder Name Extended *)
    (0x9F12, AnyChar, Some 16%nat);              (* Application Preferred Name *)
    (0x9F16, Common, Some 15%nat);               (* Merchant Identifier *)
    (0x9F1C, Alphanumeric, Some 8%nat);          (* Terminal Identification *)
    (0x9F1E, Alphanumeric, Some 8%nat);          (* IFD Serial Number *)
    (0x9F1F, Common, None);                      (* Track 1 Discretionary Data *)
    (0x9F24, Alphanumeric, Some 29%nat);         (* Payment Account Reference *)
    (0x9F4E, Common, None) ].                    (* Merchant Name and Location *)
Definition at_most (n : nat) (max : option nat) : Prop := match max with Some m => (n <= m)%nat | None => True end.
(** Fields of the format cn: digits, filled with F at the end. *)
Definition filled_fields : list (Z * option nat) := [(0x5A, Some 19%nat); (0x9F20, None)].

(** Response codes of ISO 8583 other than those of FlagsSpec.v. *)
Definition other_codes : list (string * string) :=
  [ ("02", "Refer to card issuer's special conditions"); ("06", "Error"); ("07", "Pick-up card, special condition"); ("08", "Honour with identification");
    ("09", "Request in progress"); ("16", "Approved, update track 3"); ("17", "Customer cancellation"); ("18", "Customer dispute"); ("19", "Re-enter transaction");
    ("20", "Invalid response"); ("21", "No action taken"); ("22", "Suspected malfunction"); ("23", "Unacceptable transaction fee");
    ("24", "File update not supported by receiver"); ("25", "Unable to locate record on file"); ("26", "Duplicate file update record, old record replaced");
    ("27", "File update field edit error"); ("28", "File update file locked out"); ("29", "File update not successful"); ("31", "Acquirer bank not supported");
    ("32", "Completed partially"); ("33", "Expired card"); ("34", "Suspected fraud"); ("35", "Card acceptor contact acquirer"); ("36", "Restricted card");
    ("37", "Card acceptor call acquirer security"); ("38", "Allowable PIN tries exceeded"); ("39", "No credit account"); ("40", "Requested function not supported");
    ("42", "No universal account"); ("44", "No investment account"); ("45", "No account of type requested"); ("46", "Closed account, or restricted for closing");
    ("47", "From account bad status"); ("48", "To account bad status"); ("49", "Bad debt"); ("52", "No chequing account"); ("53", "No savings account");
    ("56", "No card record"); ("59", "Suspected fraud"); ("60", "Card acceptor contact acquirer"); ("64", "Original amount incorrect");
    ("66", "Card acceptor call acquirer's security department"); ("67", "Hard capture (requires that card be picked up at ATM)"); ("68", "Response received too late");
    ("70", "PIN data required"); ("71", "New PIN invalid"); ("72", "PIN change required"); ("73", "PIN is not allowed for transaction"); ("74", "PIN length error");
    ("92", "Financial institution or intermediate network facility cannot be found for routing"); ("93", "Transaction cannot be completed. Violation of law");
    ("95", "Reconcile error") ].
(** Codes with a letter (ISO 8583:2021, J.2.2.2, table J.3), and 90. *)
Definition newer_codes : list (string * string) :=
  [ ("0A", "No reason to decline"); ("0B", "Approved but fees disputed"); ("0C", "Approved, unable to process online");
    ("0D", "Approved, transaction processed offline"); ("0E", "Approved, transaction processed offline after referral");
    ("1A", "Additional consumer authentication required"); ("1B", "Cashback not allowed"); ("1C", "Cashback amount exceeded");
    ("1D", "Surcharge amount not permitted for card product"); ("1E", "Surcharge not permitted by selected network");
    ("1F", "Exceeds pre-authorized amount"); ("1G", "Currency unacceptable to card issuer"); ("1H", "Authorization lifecycle unacceptable");
    ("1I", "Authorization lifecycle has expired"); ("1J", "Message sequence number error"); ("1K", "Payment date invalid");
    ("1L", "Stop payment order - Specific pre-authorized payment"); ("1M", "Stop payment order - All pre-authorized payments for merchant");
    ("1N", "Stop payment order - Account"); ("1O", "Recurring data error"); ("1P", "Scheduled transactions exist"); ("1W", "Cheque already posted");
    ("1X", "Declined, unable to process offline"); ("1Y", "Declined, transaction processed offline");
    ("1Z", "Declined, transaction processed offline after referral"); ("2A", "Duplicate, new record rejected"); ("2B", "Unknown file");
    ("2C", "Invalid security code"); ("2D", "Database error"); ("2E", "Update not allowed"); ("2F", "Not authorized and fees disputed");
    ("3A", "Suspected counterfeit card, pick up card"); ("3B", "Daily withdrawal uses exceeded"); ("3C", "Daily withdrawal amount exceeded");
    ("4A", "Card not effective"); ("4B", "Closed savings account, or restricted for closing");
    ("4C", "Closed credit account or restricted for closing"); ("4D", "Closed credit facility cheque account or restricted for closing");
    ("4E", "Closed cheque account or restricted for closing"); ("5A", "Suspected counterfeit card");
    ("5B", "Transaction does not fulfill Anti-Money Laundering requirements"); ("5C", "Transaction not supported by the card issuer");
    ("6P", "Verification data failed"); ("6Q", "No communication keys available for use"); ("6R", "MAC key sync error"); ("6S", "MAC incorrect");
    ("6T", "Security software/hardware error - try again"); ("6U", "Security software/hardware error - do not retry");
    ("6V", "Encryption key sync error"); ("6W", "Key verification failed. Key check value does not match"); ("6X", "Key sync error");
    ("6Y", "Missing required data to verify/process PIN"); ("6Z", "Invalid PIN block"); ("8A", "Reconciled, in balance");
    ("8B", "Amount not reconciled, totals provided"); ("8C", "Totals not available"); ("8D", "Not reconciled, totals provided");
    ("8E", "Ineligible to receive financial position information"); ("8F", "Reconciliation cutover or checkpoint error");
    ("8G", "Advice acknowledged, no financial liability accepted"); ("8H", "Advice acknowledged, financial liability accepted");
    ("8I", "Message number out of sequence"); ("8W", "Perform Stand-In Processing (STIP)"); ("8X", "Currently unable to perform request; try later");
    ("8Y", "Card issuer signed off"); ("8Z", "Card issuer timed out");
    ("90", "Cutoff is in process (switch ending a day's business and starting the next. Transaction can be sent again in a few minutes)");
    ("9A", "Violation of business arrangement"); ("9B", "No matching original transaction"); ("9C", "Original transaction was declined");
    ("9D", "Bank not found"); ("9E", "Bank not effective"); ("9F", "Information not on file") ].
