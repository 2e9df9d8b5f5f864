(** Model of the HTTP interface of cmd/vanflow-tool (serve.go l.51-109, api.go
    l.10-14) on top of the request multiplexer of net/http (Go 1.21,
    server.go: cleanPath, ServeMux.match, shouldRedirectRLocked, appendSorted,
    Handler, Handle).  Handlers ignore the request's method, query and body, and
    so does the model; CONNECT requests and requests for "*", which net/http
    treats apart, are left out, and so are hosts: no pattern has one. *)
From Coq Require Import ZArith NArith Ascii String.
From stdpp Require Import base gmap strings list.
From Verif Require Import GoBase Encoding Records Env SyncMap Tokens Cache Tool.

Local Open Scope list_scope.

(** ** Paths *)

(** The parts of a path between slashes. *)
Fixpoint split_slash (s : string) : list string :=
  match s with
  | EmptyString => [""%string]
  | String c s' =>
      if bool_decide (c = "/"%char) then ""%string :: split_slash s'
      else match split_slash s' with [] => [String c ""] | h :: t => String c h :: t end
  end.

(** path.Clean on a rooted path: empty and "." parts go, ".." removes the part
    before it, if any.  [acc] holds the parts kept, the last first. *)
Fixpoint clean_parts (l acc : list string) : list string :=
  match l with
  | [] => rev acc
  | x :: l' =>
      if bool_decide (x = ""%string) || bool_decide (x = "."%string) then clean_parts l' acc
      else if bool_decide (x = ".."%string) then clean_parts l' (tail acc)
      else clean_parts l' (x :: acc)
  end.

Fixpoint join_parts (l : list string) : string :=
  match l with
  | [] => ""
  | x :: l' => ("/" ++ x ++ join_parts l')%string
  end.

Fixpoint ends_slash (s : string) : bool :=
  match s with
  | EmptyString => false
  | String c EmptyString => bool_decide (c = "/"%char)
  | String _ s' => ends_slash s'
  end.

(** server.go, cleanPath: the trailing slash stays. *)
Definition clean_path (p : string) : string :=
  let p := match p with String "/"%char _ => p | _ => ("/" ++ p)%string end in
  let parts := clean_parts (split_slash p) [] in
  match parts with
  | [] => "/"%string
  | _ => (join_parts parts ++ if ends_slash p then "/" else "")%string
  end.

(** ** The multiplexer *)

(** Patterns are registered with a handler: the root, the sources, the records
    of a type. *)
Inductive page := PRoot | PSources | PType (m : type_meta).

(** ServeMux: the patterns that end in a slash, the longest first.  All of the
    tool's do, so that this list has all. *)
Notation mux := (list (string * page)).

(** appendSorted. *)
Fixpoint append_sorted (x : string * page) (m : mux) : mux :=
  match m with
  | [] => [x]
  | y :: m' => if String.length y.1 <? String.length x.1 then x :: m else y :: append_sorted x m'
  end.

(** Handle panics if the pattern is empty or taken. *)
Definition handle (pat : string) (h : page) (m : mux) : option mux :=
  if bool_decide (pat = ""%string) || bool_decide (pat ∈ m.*1) then None else Some (append_sorted (pat, h) m).

Definition registered (m : mux) (pat : string) : option page := snd <$> List.find (fun x => bool_decide (x.1 = pat)) m.

(** ServeMux.match: the pattern itself, or the first that is a prefix. *)
Definition mux_match (m : mux) (p : string) : option page :=
  match registered m p with
  | Some h => Some h
  | None => snd <$> List.find (fun x => String.prefix x.1 p) m
  end.

(** shouldRedirectRLocked. *)
Definition should_redirect (m : mux) (p : string) : bool :=
  match registered m p with
  | Some _ => false
  | None => match registered m (p ++ "/")%string with Some _ => negb (ends_slash p) && bool_decide (p <> ""%string) | None => false end
  end.

(** ServeMux.Handler: a redirect, a page, or net/http's own 404. *)
Inductive routed := Moved (to : string) | Page (h : page) | NoPage.
Definition route (m : mux) (p : string) : routed :=
  let q := clean_path p in
  if should_redirect m q then Moved (q ++ "/")%string
  else if bool_decide (q <> p) then Moved q
  else match mux_match m p with Some h => Page h | None => NoPage end.

(** ** The tool's routes *)

(** serve.go l.96. *)
Definition type_path (t : gotype) : string := ("/" ++ type_meta_string (default (TypeMeta "" "") (get_type_meta t)) ++ "/")%string.

(** serve.go l.51-54 and l.97: the references, in the end. *)
Definition tool_refs (flows logs : bool) : list string := ["/"; "/sources/"]%string ++ (type_path <$> tool_types flows logs).

(** serve.go l.56, l.78 and l.98: the registrations in order; None if one
    panics. *)
Definition tool_pages (flows logs : bool) : list (string * page) :=
  [("/", PRoot); ("/sources/", PSources)]%string ++
  ((fun t => (type_path t, PType (default (TypeMeta "" "") (get_type_meta t)))) <$> tool_types flows logs).
Definition tool_mux (flows logs : bool) : option mux :=
  fold_left (fun m x => m ≫= handle x.1 x.2) (tool_pages flows logs) (Some []).

(** ** JSON *)

(** time.Time.MarshalJSON fails unless the year, in the time's location, is in
    [0,9999]; [zone] gives the offset of local time in seconds.  (Offsets of a
    day or more, for which it fails as well, are left out.) *)
Definition json_time_ok (zone : gotime -> Z) (t : gotime) : bool :=
  let s := (t_sec t + zone t)%Z in (-62167219200 <=? s)%Z && (s <? 253402300800)%Z.

(** json.Marshal of a value: nothing but a time can fail. *)
Fixpoint json_ok (zone : gotime -> Z) (v : goval) : bool :=
  match v with
  | VTime t => json_time_ok zone t
  | VPtr (Some v) => json_ok zone v
  | VStruct vs => forallb (json_ok zone) vs
  | _ => true
  end.
Definition entry_json_ok (zone : gotime -> Z) (x : entry) : bool :=
  json_time_ok zone (m_updated (e_meta x)) && match e_rec x with Some r => json_ok zone (vr_val r) | None => true end.

(** api.go l.10-14, RecordsResponse; the error text is reduced to whether there
    is one. *)
Record body := Body { b_data : list entry; b_error : bool; b_refs : list string }.

(** The answer to a request: a redirect (301), or a status and the body.
    Encoder.Encode writes nothing if it fails, and its error is dropped: the
    body is then empty (None). *)
Inductive reply := Redirected (to : string) | Reply (status : Z) (b : option body).

Definition encoded (zone : gotime -> Z) (b : body) : option body :=
  if forallb (entry_json_ok zone) (b_data b) then Some b else None.

(** What List and Index give (serve.go l.68-74, l.101-107): the entries, and an
    error, which sets the status. *)
Definition listing (zone : gotime -> Z) (refs : list string) (o : out) : reply :=
  match o with
  | OutSet l _ e => Reply (match e with Some _ => 500 | None => 200 end) (encoded zone (Body l (match e with Some _ => true | None => false end) refs))
  | _ => Reply 500 None (* not reached *)
  end.

(** serve.go l.93-95: the query for a type. *)
Definition type_exemplar (m : type_meta) : entry := Entry zero_meta m None.

(** serve.go l.82-86: a source as an entry. *)
Definition source_entry (r : source_ref) : entry := Entry (Metadata r zero_time ∅) (TypeMeta "" "") None.

(** serve.go l.56-109: the handlers. [srcs] are the sources collected, in the
    order of sync.Map.Range. *)
Definition answer (flows logs : bool) (zone : gotime -> Z) (e : env) (st : items) (srcs : list source_ref) (p : string) : reply :=
  match tool_mux flows logs with
  | None => Reply 500 None (* not reached: the tool panics when it starts *)
  | Some m =>
      match route m p with
      | Moved q => Redirected q
      | NoPage => Reply 404 None
      | Page PRoot =>
          if bool_decide (p <> "/"%string) then Reply 404 (encoded zone (Body [] true (tool_refs flows logs)))
          else listing zone (tool_refs flows logs) (list_all fixture_config e st None)
      | Page PSources => Reply 200 (encoded zone (Body (source_entry <$> srcs) false []))
      | Page (PType t) => listing zone [] (index_of fixture_config e st "ByType" (type_exemplar t) None)
      end
  end.
