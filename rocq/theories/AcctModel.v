(** Accounts: the records that stand for a balance towards a bank, and what they copy from the
    balance and its identity. account.go:39-151, api/model/model.go:311-354, database/account.go. *)
From Coq Require Import List String Bool Arith.
Import ListNotations.
Local Open Scope string_scope.
Local Open Scope list_scope.

(** The rows, without times and metadata and, of a balance, without its amounts;
    sql/1708676327.sql:28-85. An identity_id that is null is "". *)
Record identity := { i_id : string; i_type : string; i_first : string; i_last : string; i_organization : string }.
Record balance := { b_id : string; b_ledger : string; b_identity : string; b_currency : string }.
Record account := { a_id : string; a_name : string; a_number : string; a_bank : string; a_currency : string;
                    a_ledger : string; a_identity : string; a_balance : string }.
Record store := { ledgers : list string; identities : list identity; balances : list balance; accounts : list account }.
Definition empty : store := {| ledgers := []; identities := []; balances := []; accounts := [] |}.

Definition find_identity (s : store) (id : string) : option identity := find (fun i => String.eqb (i_id i) id) (identities s).
(** GetBalanceByIDLite, database/balance.go:336-420. *)
Definition find_balance (s : store) (id : string) : option balance := find (fun b => String.eqb (b_id b) id) (balances s).
Definition find_account (s : store) (id : string) : option account := find (fun a => String.eqb (a_id a) id) (accounts s).

(** POST /accounts: the body, api/model/account.go:18-26. *)
Record request := { q_bank : string; q_number : string; q_currency : string; q_identity : string; q_ledger : string; q_balance : string }.

(** ValidateCreateAccount, api/model/model.go:311-329. *)
Definition blank (t : string) : bool := String.eqb t "".
Definition valid (q : request) : bool :=
  if blank (q_balance q) then negb (blank (q_ledger q)) && negb (blank (q_identity q)) && negb (blank (q_currency q))
  else blank (q_ledger q) && blank (q_currency q).

(** ToAccount, api/model/model.go:352-354. The id comes with the row. *)
Definition to_account (q : request) : account :=
  {| a_id := ""; a_name := ""; a_number := q_number q; a_bank := q_bank q; a_currency := q_currency q;
     a_ledger := q_ledger q; a_identity := q_identity q; a_balance := q_balance q |}.

(** overrideLedgerAndIdentity, account.go:107-124. *)
Definition or_else (t u : string) : string := if blank t then u else t.
Definition override (b : balance) (a : account) : account :=
  {| a_id := a_id a; a_name := a_name a; a_number := a_number a; a_bank := a_bank a;
     a_currency := or_else (b_currency b) (a_currency a); a_ledger := or_else (b_ledger b) (a_ledger a);
     a_identity := or_else (b_identity b) (a_identity a); a_balance := a_balance a |}.

(** applyAccountName, account.go:82-96; the body has no name, so it is always made up. *)
Definition name_of (i : identity) : string :=
  if String.eqb (i_type i) "organization" then i_organization i else (i_first i ++ " " ++ i_last i)%string.
Definition set_name (n : string) (a : account) : account :=
  {| a_id := a_id a; a_name := n; a_number := a_number a; a_bank := a_bank a; a_currency := a_currency a;
     a_ledger := a_ledger a; a_identity := a_identity a; a_balance := a_balance a |}.

(** applyExternalAccount, account.go:39-70: the service that hands out numbers is off, does not
    answer properly, or answers number and bank. *)
Inductive service := Off | Broken | Says (number bank : string).
Definition numbered (sv : service) (a : account) : option account :=
  match sv with
  | Off => Some a
  | Broken => None
  | Says n k =>
    if negb (blank n) && negb (blank k) then
      Some {| a_id := a_id a; a_name := a_name a; a_number := n; a_bank := k; a_currency := a_currency a;
              a_ledger := a_ledger a; a_identity := a_identity a; a_balance := a_balance a |}
    else Some a
  end.

(** CreateAccount, database/account.go:40-59, with the constraints of sql/1708676327.sql:72-85. *)
Definition set_id (id : string) (a : account) : account :=
  {| a_id := id; a_name := a_name a; a_number := a_number a; a_bank := a_bank a; a_currency := a_currency a;
     a_ledger := a_ledger a; a_identity := a_identity a; a_balance := a_balance a |}.
Definition present {A} (o : option A) : bool := match o with Some _ => true | None => false end.
Definition accepted (s : store) (a : account) : bool :=
  negb (present (find_account s (a_id a))) && negb (existsb (fun x => String.eqb (a_number x) (a_number a)) (accounts s))
  && existsb (String.eqb (a_ledger a)) (ledgers s) && present (find_identity s (a_identity a)) && present (find_balance s (a_balance a)).
Definition insert (s : store) (a : account) : store :=
  {| ledgers := ledgers s; identities := identities s; balances := balances s; accounts := accounts s ++ [a] |}.

Inductive answer := Invalid | NoBalance | NoIdentity | NoNumber | DbRefused | Created (a : account).
(** CreateAccount, api/accounts.go:40-59 and account.go:136-151; [id] is the id generated.
    Simplified: the reads and the insert are one step. *)
Definition create (s : store) (sv : service) (id : string) (q : request) : store * answer :=
  if negb (valid q) then (s, Invalid) else
  match find_balance s (q_balance q) with
  | None => (s, NoBalance)
  | Some b =>
    let a := override b (to_account q) in
    match find_identity s (a_identity a) with
    | None => (s, NoIdentity)
    | Some i =>
      match numbered sv (set_name (name_of i) a) with
      | None => (s, NoNumber)
      | Some a => let a := set_id id a in if accepted s a then (insert s a, Created a) else (s, DbRefused)
      end
    end
  end.

(** The rest of what changes these rows. Ids are generated and not taken.
    [NewBalance]: api/model/model.go ValidateCreateBalance asks for ledger and currency, the row
    for an identity that exists. [SetIdentity]: balance.go:663-682, database/balance.go:1689-1714.
    [Rename]: an update of an identity. [DropIdentity]: database/identity.go:308-331; the
    references of balances and accounts forbid it. *)
Inductive event :=
| NewLedger (id : string)
| NewIdentity (i : identity)
| NewBalance (b : balance)
| SetIdentity (bal idn : string)
| Rename (i : identity)
| DropIdentity (id : string)
| NewAccount (sv : service) (id : string) (q : request).

Definition relabel (bal idn : string) (b : balance) : balance :=
  if String.eqb (b_id b) bal then {| b_id := b_id b; b_ledger := b_ledger b; b_identity := idn; b_currency := b_currency b |} else b.
Definition renamed (i j : identity) : identity := if String.eqb (i_id j) (i_id i) then i else j.
Definition referenced (s : store) (id : string) : bool :=
  existsb (fun b => String.eqb (b_identity b) id) (balances s) || existsb (fun a => String.eqb (a_identity a) id) (accounts s).

Definition step (s : store) (e : event) : store :=
  match e with
  | NewLedger id => if blank id || existsb (String.eqb id) (ledgers s) then s else
      {| ledgers := ledgers s ++ [id]; identities := identities s; balances := balances s; accounts := accounts s |}
  | NewIdentity i => if blank (i_id i) || present (find_identity s (i_id i)) then s else
      {| ledgers := ledgers s; identities := identities s ++ [i]; balances := balances s; accounts := accounts s |}
  | NewBalance b =>
      if blank (b_id b) || present (find_balance s (b_id b)) || blank (b_currency b) || negb (existsb (String.eqb (b_ledger b)) (ledgers s))
         || (negb (blank (b_identity b)) && negb (present (find_identity s (b_identity b)))) then s else
      {| ledgers := ledgers s; identities := identities s; balances := balances s ++ [b]; accounts := accounts s |}
  | SetIdentity bal idn =>
      if blank idn || negb (present (find_identity s idn)) || negb (present (find_balance s bal)) then s else
      {| ledgers := ledgers s; identities := identities s; balances := map (relabel bal idn) (balances s); accounts := accounts s |}
  | Rename i => {| ledgers := ledgers s; identities := map (renamed i) (identities s); balances := balances s; accounts := accounts s |}
  | DropIdentity id => if referenced s id then s else
      {| ledgers := ledgers s; identities := filter (fun i => negb (String.eqb (i_id i) id)) (identities s); balances := balances s; accounts := accounts s |}
  | NewAccount sv id q => fst (create s sv id q)
  end.

(** GetAccountByID with include, database/account.go:69-105, 113-170, 181-265: the account and,
    if asked for, the rows it points to. *)
Definition get (s : store) (id : string) : option (account * option balance * option identity) :=
  match find_account s id with
  | None => None
  | Some a => Some (a, find_balance s (a_balance a), find_identity s (a_identity a))
  end.

(** GET /accounts without filters, api/accounts.go:94-137, database/account.go:271-310: limit and
    offset are read and not used, and three columns are not selected. Newest first. *)
Definition listed (a : account) : account :=
  {| a_id := a_id a; a_name := a_name a; a_number := a_number a; a_bank := a_bank a; a_currency := a_currency a;
     a_ledger := ""; a_identity := ""; a_balance := "" |}.
Definition list_accounts (limit offset : nat) (s : store) : list account := map listed (rev (accounts s)).
