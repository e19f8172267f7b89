(** PyUrl.v: urllib.parse, as far as it is used, for str of ASCII characters. A concrete [urllib] for
    the examples; no theorem is restricted to it.

    Simplifications: the characters that [urlsplit] strips (leading blanks and control characters; tab and
    newline inside) and the check of bracketed (IPv6) hosts are left out; [hostname] does not
    treat brackets. *)
From Verif Require Import Base Types Uri.
Local Open Scope char_scope.

Definition hexval (c : ascii) : option nat :=
  let n := nat_of_ascii c in
  if (48 <=? n)%nat && (n <=? 57)%nat then Some (n - 48)%nat
  else if (65 <=? n)%nat && (n <=? 70)%nat then Some (n - 55)%nat
  else if (97 <=? n)%nat && (n <=? 102)%nat then Some (n - 87)%nat
  else None.

(** [unquote]: %XX, where XX are two hex digits, is the character of that number *)
Fixpoint unquote (s : string) : string :=
  match s with
  | EmptyString => EmptyString
  | String c s' =>
      match s' with
      | String x (String y r) =>
          if Ascii.eqb c "%" then
            match hexval x, hexval y with
            | Some a, Some b => String (ascii_of_nat (16 * a + b)%nat) (unquote r)
            | _, _ => String c (unquote s')
            end
          else String c (unquote s')
      | _ => String c (unquote s')
      end
  end.

(** [s.split(c, 1)]: up to the first [c], and what follows it, if there is one *)
Fixpoint cut_at (c : ascii) (s : string) : string * option string :=
  match s with
  | EmptyString => (EmptyString, None)
  | String d s' =>
      if Ascii.eqb c d then (EmptyString, Some s')
      else let '(a, b) := cut_at c s' in (String d a, b)
  end.
(** up to the first character in [stops], and the rest from there *)
Fixpoint span_to (stops : list ascii) (s : string) : string * string :=
  match s with
  | EmptyString => (EmptyString, EmptyString)
  | String d s' =>
      if existsb (Ascii.eqb d) stops then (EmptyString, s)
      else let '(a, b) := span_to stops s' in (String d a, b)
  end.

Definition lower (c : ascii) : ascii :=
  let n := nat_of_ascii c in if (65 <=? n)%nat && (n <=? 90)%nat then ascii_of_nat (n + 32)%nat else c.
Fixpoint smap (f : ascii -> ascii) (s : string) : string :=
  match s with EmptyString => EmptyString | String c s' => String (f c) (smap f s') end.
Fixpoint sall (f : ascii -> bool) (s : string) : bool :=
  match s with EmptyString => true | String c s' => f c && sall f s' end.
Definition letter (c : ascii) : bool :=
  let n := nat_of_ascii (lower c) in (97 <=? n)%nat && (n <=? 122)%nat.
Definition scheme_char (c : ascii) : bool :=
  letter c || existsb (Ascii.eqb c) ["0"; "1"; "2"; "3"; "4"; "5"; "6"; "7"; "8"; "9"; "+"; "-"; "."].

Definition uses_netloc : list string :=
  [""; "ftp"; "http"; "gopher"; "nntp"; "telnet"; "imap"; "wais"; "file"; "mms"; "https"; "shttp"; "snews";
   "prospero"; "rtsp"; "rtspu"; "rsync"; "svn"; "svn+ssh"; "sftp"; "nfs"; "git"; "git+ssh"; "ws"; "wss"]%string.

(** urlsplit and urlunsplit of the result without query and fragment *)
Definition urlsplit (url : string) : urlparts :=
  let '(scheme, rest) :=
    match cut_at ":" url with
    | (sch, Some r) =>
        match sch with
        | String c _ => if letter c && sall scheme_char sch then (smap lower sch, r) else (EmptyString, url)
        | EmptyString => (EmptyString, url)
        end
    | (_, None) => (EmptyString, url)
    end in
  let '(netloc, rest) :=
    if starts_with "//" rest then
      match rest with
      | String _ (String _ r) => span_to ["/"; "?"; "#"] r
      | _ => (EmptyString, rest)
      end
    else (EmptyString, rest) in
  let '(rest, fragment) := match cut_at "#" rest with (a, Some f) => (a, f) | (a, None) => (a, EmptyString) end in
  let '(path, query) := match cut_at "?" rest with (a, Some q) => (a, q) | (a, None) => (a, EmptyString) end in
  let full :=
    if nonempty netloc || (nonempty scheme && smem scheme uses_netloc && negb (starts_with "//" path))
    then ("//" ++ netloc ++ (if nonempty path && negb (starts_with "/" path) then "/" ++ path else path))%string
    else path in
  let base := if nonempty scheme then (scheme ++ ":" ++ full)%string else full in
  let hostport := match cut_at "@" netloc with (_, Some h) => h | (h, None) => h end in
  let host := smap lower (fst (cut_at ":" hostport)) in
  mkUP scheme netloc (if nonempty host then Some host else None) base query fragment.

Definition plus_to_blank : string -> string := smap (fun c => if Ascii.eqb c "+" then " " else c).
(** [parse_qs]: parts without "=" or with an empty value are dropped *)
Fixpoint qs_go (parts : list string) (acc : dict (list string)) : dict (list string) :=
  match parts with
  | [] => acc
  | p :: ps =>
      match cut_at "=" p with
      | (k, Some v) =>
          if nonempty v then
            let k := unquote (plus_to_blank k) in
            let v := unquote (plus_to_blank v) in
            qs_go ps (dset k (match dget k acc with Some l => l ++ [v] | None => [v] end) acc)
          else qs_go ps acc
      | (_, None) => qs_go ps acc
      end
  end.
Definition parse_qs (q : string) : dict (list string) := qs_go (split "&" q) [].

(** [urlencode]: letters, digits and _ . - ~ stay, a blank is "+", the rest is %XX *)
Definition hexdigit (n : nat) : ascii := ascii_of_nat (if n <? 10 then 48 + n else 55 + n)%nat.
Fixpoint quote_plus (s : string) : string :=
  match s with
  | EmptyString => EmptyString
  | String c s' =>
      let n := nat_of_ascii c in
      if letter c || ((48 <=? n)%nat && (n <=? 57)%nat) || existsb (Ascii.eqb c) ["_"; "."; "-"; "~"]
      then String c (quote_plus s')
      else if Ascii.eqb c " " then String "+" (quote_plus s')
      else String "%" (String (hexdigit (n / 16)%nat) (String (hexdigit (n mod 16)%nat) (quote_plus s')))
  end.
Definition urlencode (l : list (string * string)) : string :=
  join "&" (map (fun kv => (quote_plus (fst kv) ++ "=" ++ quote_plus (snd kv))%string) l).

Definition py_url : urllib := mkUL unquote (fun s => Ok (urlsplit s)) parse_qs urlencode.
