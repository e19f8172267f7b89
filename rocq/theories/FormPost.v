(** FormPost.v: the page for response_mode=form_post (oauth2/authorization.py:60-80). *)
From Verif Require Import Base Types.

Definition dq : string := String (Ascii.ascii_of_nat 34) "".
Definition nl : string := String (Ascii.ascii_of_nat 10) "".

(** oauth2/authorization.py:77, 79 *)
Definition html_field (name value : string) : string :=
  ("<input type=" ++ dq ++ "hidden" ++ dq ++ " name=" ++ dq ++ name ++ dq ++ " value=" ++ dq ++ value ++ dq ++ "/>")%string.

(** oauth2/authorization.py:72-80. The values are given as str.format shows them. *)
Definition inputs (form_args : list (string * string)) : string :=
  join nl (map (fun nv => html_field (fst nv) (snd nv)) form_args).

(** oauth2/authorization.py:60-69 *)
Definition page_head : string :=
  ("<html>" ++ nl ++ "  <head>" ++ nl ++ "    <title>Submit This Form</title>" ++ nl ++ "  </head>" ++ nl ++
   "  <body onload=" ++ dq ++ "javascript:document.forms[0].submit()" ++ dq ++ ">" ++ nl ++
   "    <form method=" ++ dq ++ "post" ++ dq ++ " action=" ++ dq)%string.
Definition page_tail : string := (nl ++ "    </form>" ++ nl ++ "  </body>" ++ nl ++ "</html>")%string.
(** oauth2/authorization.py:609-612: FORM_POST.format(inputs=.., action=..) *)
Definition form_post (action : string) (form_args : list (string * string)) : string :=
  (page_head ++ action ++ dq ++ ">" ++ nl ++ "        " ++ inputs form_args ++ page_tail)%string.
