(** What files, slides and version tables should look like, for C64, C91 and C92. *)
From Verif Require Import Py.
Open Scope Z_scope.

(** [base] is the last component of [path]: what follows the last slash. *)
Definition last_component (path base : list Z) : Prop :=
  ~ In 47 base /\ (path = base \/ exists dir, path = dir ++ [47] ++ base).

(** The type of a file: the guess by its name if there is one, else that of
    arbitrary data. *)
Definition file_type (guess : option (list Z)) (media : list Z) : Prop :=
  match guess with
  | Some g => if leqb g [] then media = str "application/octet-stream" else media = g
  | None => media = str "application/octet-stream"
  end.

(** * WAP-230-WSP, tables 38 and 39 *)

(** Parameter numbers: the names assigned in encoding version 1.1, and those that
    came with 1.2, 1.3 and 1.4. *)
Definition parameters_since (minor : Z) : list (Z * list Z) :=
  if minor =? 1 then
    [(0, str "Q"); (1, str "Charset"); (2, str "Level"); (3, str "Type"); (5, str "Name");
     (6, str "Filename"); (7, str "Differences"); (8, str "Padding")]
  else if minor =? 2 then
    [(9, str "Type"); (10, str "Start"); (11, str "Start-info")]
  else if minor =? 3 then
    [(12, str "Comment"); (13, str "Domain"); (14, str "Max-Age"); (15, str "Path");
     (16, str "Secure")]
  else if minor =? 4 then
    [(17, str "SEC"); (18, str "MAC"); (19, str "Creation-date");
     (20, str "Modification-date"); (21, str "Read-date"); (22, str "Size");
     (23, str "Name"); (24, str "Filename"); (25, str "Start"); (26, str "Start-info");
     (27, str "Comment"); (28, str "Domain"); (29, str "Path")]
  else [].

(** Header fields likewise: the numbers run on, those of a version starting where
    those of the one before end. *)
Definition fields_since (minor : Z) : Z * list (list Z) :=
  if minor =? 1 then (0, map str
    ["Accept"; "Accept-Charset"; "Accept-Encoding"; "Accept-Language"; "Accept-Ranges";
     "Age"; "Allow"; "Authorization"; "Cache-Control"; "Connection"; "Content-Base";
     "Content-Encoding"; "Content-Language"; "Content-Length"; "Content-Location";
     "Content-MD5"; "Content-Range"; "Content-Type"; "Date"; "Etag"; "Expires"; "From";
     "Host"; "If-Modified-Since"; "If-Match"; "If-None-Match"; "If-Range";
     "If-Unmodified-Since"; "Location"; "Last-Modified"; "Max-Forwards"; "Pragma";
     "Proxy-Authenticate"; "Proxy-Authorization"; "Public"; "Range"; "Referer";
     "Retry-After"; "Server"; "Transfer-Encoding"; "Upgrade"; "User-Agent"; "Vary"; "Via";
     "Warning"; "WWW-Authenticate"; "Content-Disposition"]%string)
  else if minor =? 2 then (47, map str
    ["X-Wap-Application-Id"; "X-Wap-Content-URI"; "X-Wap-Initiator-URI";
     "Accept-Application"; "Bearer-Indication"; "Push-Flag"; "Profile"; "Profile-Diff";
     "Profile-Warning"]%string)
  else if minor =? 3 then (56, map str
    ["Expect"; "TE"; "Trailer"; "Accept-Charset"; "Accept-Encoding"; "Cache-Control";
     "Content-Range"; "X-Wap-Tod"; "Content-ID"; "Set-Cookie"; "Cookie";
     "Encoding-Version"]%string)
  else if minor =? 4 then (68, map str
    ["Profile-Warning"; "Content-Disposition"; "X-WAP-Security"; "Cache-Control"]%string)
  else (72, []).

(** The field [name] got the number [n] with version 1.[minor]. *)
Definition field_since (minor n : Z) (name : list Z) : Prop :=
  fst (fields_since minor) <= n /\
  nth_error (snd (fields_since minor)) (Z.to_nat (n - fst (fields_since minor))) = Some name.
