(** FormPostSpec.v: how a browser reads an HTML page and what it submits: the tokenizer of the HTML standard
    (WHATWG, section "Tokenization") for tags and attributes, as a state machine, and the entry list of the
    hidden inputs. Comments, doctype, scripts and RCDATA are treated as text; of the character references only
    the five for & < > and the two quotes are known here (the standard has many more), and U+FFFD (for NUL)
    is written as "?". *)
From Coq Require Import List String Ascii Bool.
Import ListNotations.
Local Open Scope string_scope.

Definition tag := (string * list (string * string))%type.

Inductive mode :=
| Data                                    (* text *)
| TagOpen                                 (* after < *)
| Skip                                    (* end tags and <! : up to > *)
| TagName
| BeforeName                              (* before an attribute name *)
| AttName (n : string)
| AfterName (n : string)
| BeforeValue (n : string)
| Quoted (q : ascii) (n v : string)
| Unquoted (n v : string).

(** [p_name], [p_atts]: the tag that is being read; [p_tags]: those read *)
Record reader := mkR { p_tags : list tag; p_name : string; p_atts : list (string * string); p_mode : mode }.

Definition blank (c : ascii) : bool :=
  existsb (Ascii.eqb c) [" "; "009"; "010"; "012"]%char.
Definition letter (c : ascii) : bool :=
  let n := nat_of_ascii c in (Nat.leb 65 n && Nat.leb n 90 || Nat.leb 97 n && Nat.leb n 122)%bool.
Definition lower (c : ascii) : ascii :=
  let n := nat_of_ascii c in if (Nat.leb 65 n && Nat.leb n 90)%bool then ascii_of_nat (n + 32) else c.
Definition snoc (s : string) (c : ascii) : string := s ++ String c "".

Definition DQ : ascii := ascii_of_nat 34.
Definition SQ : ascii := ascii_of_nat 39.

Definition go (r : reader) (m : mode) : reader := mkR (p_tags r) (p_name r) (p_atts r) m.
Definition add_att (r : reader) (n v : string) (m : mode) : reader := mkR (p_tags r) (p_name r) (p_atts r ++ [(n, v)]) m.
(** the > of a tag *)
Definition emit (r : reader) : reader := mkR (p_tags r ++ [(p_name r, p_atts r)]) "" [] Data.

Definition before_name (r : reader) (c : ascii) : reader :=
  if blank c || Ascii.eqb c "/" then go r BeforeName
  else if Ascii.eqb c ">" then emit r
  else go r (AttName (String (lower c) "")).

Definition step (r : reader) (c : ascii) : reader :=
  match p_mode r with
  | Data => if Ascii.eqb c "<" then go r TagOpen else r
  | TagOpen =>
      if letter c then mkR (p_tags r) (String (lower c) "") [] TagName
      else if Ascii.eqb c "/" || Ascii.eqb c "!" || Ascii.eqb c "?" then go r Skip
      else if Ascii.eqb c "<" then r else go r Data
  | Skip => if Ascii.eqb c ">" then go r Data else r
  | TagName =>
      if blank c || Ascii.eqb c "/" then go r BeforeName
      else if Ascii.eqb c ">" then emit r
      else mkR (p_tags r) (snoc (p_name r) (lower c)) (p_atts r) TagName
  | BeforeName => before_name r c
  | AttName n =>
      if blank c then go r (AfterName n)
      else if Ascii.eqb c "/" then add_att r n "" BeforeName
      else if Ascii.eqb c ">" then emit (add_att r n "" Data)
      else if Ascii.eqb c "=" then go r (BeforeValue n)
      else go r (AttName (snoc n (lower c)))
  | AfterName n =>
      if blank c then r
      else if Ascii.eqb c "/" then add_att r n "" BeforeName
      else if Ascii.eqb c ">" then emit (add_att r n "" Data)
      else if Ascii.eqb c "=" then go r (BeforeValue n)
      else add_att r n "" (AttName (String (lower c) ""))
  | BeforeValue n =>
      if blank c then r
      else if Ascii.eqb c DQ then go r (Quoted DQ n "")
      else if Ascii.eqb c SQ then go r (Quoted SQ n "")
      else if Ascii.eqb c ">" then emit (add_att r n "" Data)
      else go r (Unquoted n (String c ""))
  | Quoted q n v => if Ascii.eqb c q then add_att r n v BeforeName else go r (Quoted q n (snoc v c))
  | Unquoted n v =>
      if blank c then add_att r n v BeforeName
      else if Ascii.eqb c ">" then emit (add_att r n v Data)
      else go r (Unquoted n (snoc v c))
  end.

Fixpoint read (r : reader) (s : string) : reader :=
  match s with EmptyString => r | String c s' => read (step r c) s' end.

(** input preprocessing: CR LF and CR are LF, NUL is replaced *)
Fixpoint newlines (s : string) : string :=
  match s with
  | EmptyString => EmptyString
  | String c s' =>
      if Ascii.eqb c "013" then
        match s' with
        | String d s'' => if Ascii.eqb d "010" then newlines s' else String "010" (newlines s')
        | EmptyString => String "010" EmptyString
        end
      else String (if Ascii.eqb c "000" then "?" else c) (newlines s')
  end.

Definition tags (page : string) : list tag := p_tags (read (mkR [] "" [] Data) (newlines page)).

(** character references in attribute values *)
Definition refs : list (string * string) :=
  [("&amp;", "&"); ("&lt;", "<"); ("&gt;", ">"); ("&quot;", String DQ ""); ("&#39;", "'")].
Fixpoint deref (skip : nat) (s : string) : string :=
  match s with
  | EmptyString => EmptyString
  | String c s' =>
      match skip with
      | S k => deref k s'
      | O => match find (fun r => String.prefix (fst r) s) refs with
             | Some (r, x) => x ++ deref (pred (String.length r)) s'
             | None => String c (deref O s')
             end
      end
  end.

(** the first of several attributes of one name counts *)
Fixpoint att (n : string) (l : list (string * string)) : option string :=
  match l with
  | [] => None
  | (k, v) :: l' => if String.eqb n k then Some (deref 0 v) else att n l'
  end.

(** what a tag adds to what is submitted: inputs without a name, or with an empty one, add nothing *)
Definition entry (t : tag) : list (string * string) :=
  if String.eqb (fst t) "input" then
    match att "name" (snd t) with
    | None | Some "" => []
    | Some n => [(n, match att "value" (snd t) with Some v => v | None => "" end)]
    end
  else [].
(** what is submitted, and where to *)
Definition submitted (page : string) : list (string * string) := flat_map entry (tags page).
Definition target (page : string) : option string :=
  match filter (fun t => String.eqb (fst t) "form") (tags page) with
  | t :: _ => att "action" (snd t)
  | [] => None
  end.

(** texts without quote, ampersand, carriage return and NUL *)
Fixpoint harmless (s : string) : bool :=
  match s with
  | EmptyString => true
  | String c s' =>
      negb (Ascii.eqb c DQ || Ascii.eqb c "&" || Ascii.eqb c "013" || Ascii.eqb c "000") && harmless s'
  end.
Definition well (nv : string * string) : Prop :=
  fst nv <> "" /\ harmless (fst nv) = true /\ harmless (snd nv) = true.
