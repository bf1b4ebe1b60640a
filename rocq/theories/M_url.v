(* Model of the parts of Go's net/url, net, path and path/filepath that Dial and NewPlaylist rely on
   (net/rtsp/connection.go:58-63, 75-76, 87-88; net/hls/playlist.go:43-51), as in Go 1.19 to 1.24.
   The functions of the library are named in the comments; None is an error return. *)
From Coq Require Import String.
From Verif Require Import Base GoStrings.

(* encodePath, encodeUserPassword, encodeHost, encodeZone, encodeFragment *)
Inductive mode := InPath | InUser | InHost | InZone | InFragment.
Definition in_host (m : mode) : bool := match m with InHost | InZone => true | _ => false end.
Definition letter (c : Z) : bool := ((97 <=? c) && (c <=? 122)) || ((65 <=? c) && (c <=? 90)).
Definition alnum (c : Z) : bool := letter c || is_digit c.
Definition one_of (set : bytes) (c : Z) : bool := existsb (Z.eqb c) set.

(* net/url shouldEscape *)
Definition should_escape (c : Z) (m : mode) : bool :=
  if alnum c then false
  else if in_host m && one_of (bs "!$&'()*+,;=:[]<>""") c then false
  else if one_of (bs "-_.~") c then false
  else if one_of (bs "$&+,/:;=?@") c then
    match m with InPath => c =? 63 | InUser => one_of (bs "@/?:") c | InFragment => false | InHost | InZone => true end
  else match m with InFragment => negb (one_of (bs "!()*") c) | _ => true end.

(* net/url unescape *)
Fixpoint unescape (m : mode) (s : bytes) : option bytes :=
  match s with
  | [] => Some []
  | c :: r =>
      if c =? 37 then
        match r with
        | a :: b :: r' =>
            match unhex a, unhex b with
            | Some x, Some y =>
                let v := x * 16 + y in
                if (match m with InHost => (x <? 8) && negb (v =? 37) | InZone => negb (v =? 37) && negb (v =? 32) && should_escape v InHost | _ => false end) then None
                else match unescape m r' with Some t => Some (v :: t) | None => None end
            | _, _ => None
            end
        | _ => None
        end
      else if in_host m && (c <? 128) && should_escape c m then None
      else match unescape m r with Some t => Some (c :: t) | None => None end
  end.

(* net/url escape; upperhex *)
Definition upperhex (n : Z) : Z := if n <? 10 then 48 + n else 55 + n.
Definition escape (m : mode) (s : bytes) : bytes :=
  flat_map (fun c => if should_escape c m then [37; upperhex (c / 16); upperhex (c mod 16)] else [c]) s.

(* net/url validEncoded *)
Definition valid_encoded (m : mode) (s : bytes) : bool :=
  forallb (fun c => one_of (bs "!$&'()*+,;=:@[]%") c || negb (should_escape c m)) s.

(* strings.LastIndex of one byte *)
Definition cut_last (c : Z) (s : bytes) : option (bytes * bytes) :=
  match cut c (rev s) with Some (a, b) => Some (rev b, rev a) | None => None end.
Definition has (c : Z) (s : bytes) : bool := existsb (Z.eqb c) s.
(* strings.Index of "%25": what is before it, and the rest with it *)
Fixpoint find_zone (s : bytes) : option (bytes * bytes) :=
  match s with
  | [] => None
  | c :: r => if has_prefix (bs "%25") s then Some ([], s) else match find_zone r with Some (a, b) => Some (c :: a, b) | None => None end
  end.

Record url := mkUrl {
  u_scheme : bytes; u_opaque : bytes;
  u_user : option (bytes * option bytes);                                 (* user name; password if set *)
  u_host : bytes; u_path : bytes; u_rawpath : bytes; u_omit : bool; u_force : bool; u_query : bytes;
  u_fragment : bytes; u_rawfragment : bytes
}.

(* net/url getScheme *)
Fixpoint get_scheme (seen s raw : bytes) : option (bytes * bytes) :=
  match s with
  | [] => Some ([], raw)
  | c :: r =>
      if letter c then get_scheme (seen ++ [c]) r raw
      else if is_digit c || one_of (bs "+-.") c then (match seen with [] => Some ([], raw) | _ => get_scheme (seen ++ [c]) r raw end)
      else if c =? 58 then (match seen with [] => None | _ => Some (seen, r) end)
      else Some ([], raw)
  end.

(* net/url validOptionalPort *)
Definition valid_port (s : bytes) : bool := match s with [] => true | c :: r => (c =? 58) && forallb is_digit r end.

(* net/url parseHost *)
Definition parse_host (host : bytes) : option bytes :=
  if has_prefix (bs "[") host then
    match cut_last 93 host with
    | None => None
    | Some (before, port) =>
        if negb (valid_port port) then None
        else match find_zone before with
             | Some (h1, z) =>
                 match unescape InHost h1, unescape InZone z, unescape InHost (93 :: port) with
                 | Some a, Some b, Some c => Some (a ++ b ++ c)
                 | _, _, _ => None
                 end
             | None => unescape InHost host
             end
    end
  else match cut_last 58 host with
       | Some (_, port) => if negb (valid_port (58 :: port)) then None else unescape InHost host
       | None => unescape InHost host
       end.

(* net/url validUserinfo *)
Definition valid_userinfo (s : bytes) : bool := forallb (fun c => alnum c || one_of (bs "-._:~!$&'()*+,;=%@") c) s.

(* net/url parseAuthority *)
Definition parse_authority (a : bytes) : option (option (bytes * option bytes) * bytes) :=
  match cut_last 64 a with
  | None => match parse_host a with Some h => Some (None, h) | None => None end
  | Some (info, host) =>
      match parse_host host with
      | None => None
      | Some h =>
          if negb (valid_userinfo info) then None
          else match cut 58 info with
               | None => match unescape InUser info with Some n => Some (Some (n, None), h) | None => None end
               | Some (name, pass) =>
                   match unescape InUser name, unescape InUser pass with
                   | Some n, Some p => Some (Some (n, Some p), h)
                   | _, _ => None
                   end
               end
      end
  end.

(* net/url URL.setPath and setFragment: the decoded text, and the encoded one unless it is the default encoding *)
Definition set_encoded (m : mode) (p : bytes) : option (bytes * bytes) :=
  match unescape m p with Some d => Some (d, if beq p (escape m d) then [] else p) | None => None end.
(* net/url URL.EscapedPath and EscapedFragment *)
Definition encoded (m : mode) (d raw : bytes) : bytes :=
  if negb (beq raw []) && valid_encoded m raw && match unescape m raw with Some d' => beq d' d | None => false end then raw
  else if match m with InPath => beq d (bs "*") | _ => false end then bs "*"
  else escape m d.

(* net/url parse, without viaRequest *)
Definition parse1 (raw : bytes) : option url :=
  if existsb (fun c => (c <? 32) || (c =? 127)) raw then None
  else if beq raw (bs "*") then Some (mkUrl [] [] None [] (bs "*") [] false false [] [] [])
  else match get_scheme [] raw raw with
  | None => None
  | Some (sch, rest) =>
      let scheme := to_lower sch in
      let '(rest, force, query) :=
        match cut 63 rest with
        | None => (rest, false, [])
        | Some (a, []) => (a, true, [])
        | Some (a, q) => (a, false, q)
        end in
      let tail user host path omit :=
        match set_encoded InPath path with
        | Some (d, r) => Some (mkUrl scheme [] user host d r omit force query [] [])
        | None => None
        end in
      if negb (has_prefix (bs "/") rest) then
        if negb (beq scheme []) then Some (mkUrl scheme rest None [] [] [] false force query [] [])
        else if has 58 (match cut 47 rest with Some (a, _) => a | None => rest end) then None
        else tail None [] rest false
      else if (negb (beq scheme []) || negb (has_prefix (bs "///") rest)) && has_prefix (bs "//") rest then
        let '(authority, path) := match cut 47 (skipn 2 rest) with Some (a, b) => (a, 47 :: b) | None => (skipn 2 rest, []) end in
        match parse_authority authority with
        | Some (user, host) => tail user host path false
        | None => None
        end
      else tail None [] rest (negb (beq scheme []))
  end.

(* net/url Parse *)
Definition parse (raw : bytes) : option url :=
  match cut 35 raw with
  | None => parse1 raw
  | Some (a, frag) =>
      match parse1 a with
      | None => None
      | Some u =>
          match frag with
          | [] => Some u
          | _ => match set_encoded InFragment frag with
                 | Some (d, r) => Some (mkUrl (u_scheme u) (u_opaque u) (u_user u) (u_host u) (u_path u) (u_rawpath u) (u_omit u) (u_force u) (u_query u) d r)
                 | None => None
                 end
          end
      end
  end.

(* net/url Userinfo.String *)
Definition userinfo (x : bytes * option bytes) : bytes :=
  let '(name, pass) := x in
  if beq name [] && match pass with Some p => beq p [] | None => true end then []
  else escape InUser name ++ match pass with Some p => 58 :: escape InUser p | None => [] end.

(* net/url URL.String *)
Definition url_string (u : url) : bytes :=
  let sch := if beq (u_scheme u) [] then [] else u_scheme u ++ bs ":" in
  let body :=
    if negb (beq (u_opaque u) []) then u_opaque u
    else
      let no_user := match u_user u with None => true | _ => false end in
      let auth :=
        if beq (u_scheme u) [] && beq (u_host u) [] && no_user then []
        else if u_omit u && beq (u_host u) [] && no_user then []
        else (if beq (u_host u) [] && beq (u_path u) [] && no_user then [] else bs "//") ++
             (match u_user u with Some x => userinfo x ++ bs "@" | None => [] end) ++
             escape InHost (u_host u) in
      let path := encoded InPath (u_path u) (u_rawpath u) in
      let slash := if negb (beq path []) && negb (has_prefix (bs "/") path) && negb (beq (u_host u) []) then bs "/" else [] in
      let dot := if beq (sch ++ auth ++ slash) [] && has 58 (match cut 47 path with Some (a, _) => a | None => path end) then bs "./" else [] in
      auth ++ slash ++ dot ++ path in
  sch ++ body ++ (if u_force u || negb (beq (u_query u) []) then 63 :: u_query u else []) ++
  (if beq (u_fragment u) [] then [] else 35 :: encoded InFragment (u_fragment u) (u_rawfragment u)).

(* net SplitHostPort *)
Definition split_host_port (s : bytes) : option (bytes * bytes) :=
  match cut_last 58 s with
  | None => None
  | Some (before, port) =>
      if has_prefix (bs "[") s then
        match cut 93 s with
        | None => None
        | Some (inner, rest) =>
            match rest with
            | [] => None
            | _ => if negb (beq (inner ++ [93]) before) then None
                   else if has 91 (skipn 1 s) || has 93 rest then None
                   else Some (skipn 1 inner, port)
            end
        end
      else if has 58 before || has 91 s || has 93 s then None
      else Some (before, port)
  end.
