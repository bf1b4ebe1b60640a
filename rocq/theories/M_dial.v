(* Model of Dial (/repo/net/rtsp/connection.go:57-103) and of the constructor of playlists
   (/repo/net/hls/playlist.go:42-58), on top of M_url. *)
From Coq Require Import String.
From Verif Require Import Base GoStrings M_conn M_message M_transport M_sdp M_session M_url.

(* connection.go:63-65: the port is added when the host has none (or cannot be split) *)
Definition dial_host (u : url) : bytes := match split_host_port (u_host u) with Some _ => u_host u | None => u_host u ++ bs ":554" end.
(* connection.go:75-76, 87-88: the URI of the requests *)
Definition base_uri (u : url) : bytes :=
  url_string (mkUrl (u_scheme u) (u_opaque u) None (dial_host u) (u_path u) (u_rawpath u) (u_omit u) (u_force u) (u_query u) (u_fragment u) (u_rawfragment u)).
(* the number in a port; digits only (valid_port), the empty port is 0 *)
Definition port_number (s : bytes) : Z := fold_left (fun a c => a * 10 + (c - 48)) s 0.
(* session.go:59-60: Username and Password; an unset password is empty *)
Definition credentials (u : url) : option (bytes * bytes) :=
  match u_user u with Some (n, Some p) => Some (n, p) | Some (n, None) => Some (n, []) | None => None end.

(* what Dial does outside the process *)
Inductive dial_effect := Connect (host : bytes) (port : Z) | Wrote (text : bytes).

(* connection.go:57-103  Dial, and session.go:49 (the session's connection).
   [reach] says which host and port can be resolved and connected to; [guid] is the random cookie; [werr] whether writing the GET
   fails; [s] is what arrives. net.ResolveTCPAddr splits the address again and refuses ports over 65535. *)
Definition dial (uri : bytes) (proto : Z) (reach : bytes -> Z -> bool) (guid : bytes) (werr : bool) (s : stream) : list dial_effect * stream * option session :=
  match parse uri with
  | None => ([], s, None)
  | Some u =>
      match split_host_port (dial_host u) with
      | None => ([], s, None)
      | Some (host, port) =>
          let n := port_number port in
          if (n >? 65535) || negb (reach host n) then ([], s, None)
          else
            let ses := dialled proto (credentials u) (base_uri u) in
            if proto =? ProtoHTTP then
              if werr then ([Connect host n], s, None)
              else
                let get := connect_http (bs "GET") (base_uri u) guid in
                match receive_http s with
                | (s', Ok _) => ([Connect host n; Wrote get], s', Some ses)
                | (s', _) => ([Connect host n; Wrote get], s', None)
                end
            else ([Connect host n], s, Some ses)
      end
  end.

(* path/filepath Base *)
Definition file_base (name : bytes) : bytes :=
  match name with
  | [] => bs "."
  | _ => let s := rev (drop_byte 47 (rev name)) in
         let b := match cut_last 47 s with Some (_, b) => b | None => s end in
         if beq b [] then bs "/" else b
  end.
(* path Clean: elements are dropped from the left; [rooted] says whether the path starts with a slash;
   [out] holds the elements kept, last first *)
Fixpoint clean_els (rooted : bool) (out : list bytes) (els : list bytes) : list bytes :=
  match els with
  | [] => rev out
  | e :: r =>
      if beq e [] || beq e (bs ".") then clean_els rooted out r
      else if beq e (bs "..") then
        match out with
        | p :: out' => if beq p (bs "..") then clean_els rooted (e :: out) r else clean_els rooted out' r
        | [] => if rooted then clean_els rooted [] r else clean_els rooted [e] r
        end
      else clean_els rooted (e :: out) r
  end.
Fixpoint join_els (els : list bytes) : bytes :=
  match els with [] => [] | [e] => e | e :: r => e ++ 47 :: join_els r end.
Definition clean (p : bytes) : bytes :=
  match p with
  | [] => bs "."
  | c :: r => let rooted := c =? 47 in
              let b := join_els (clean_els rooted [] (split_on 47 p)) in
              if rooted then 47 :: b else if beq b [] then bs "." else b
  end.
(* path Join of two elements *)
Definition path_join (a b : bytes) : bytes :=
  if beq a [] then (if beq b [] then [] else clean b)
  else if beq b [] then clean a else clean (a ++ 47 :: b).
(* playlist.go:42-58: the URI of the playlist *)
Definition playlist_uri (uri name : bytes) : option bytes :=
  match parse uri with
  | None => None
  | Some u => Some (url_string (mkUrl (u_scheme u) (u_opaque u) (u_user u) (u_host u) (path_join (u_path u) (file_base name)) (u_rawpath u)
                                       (u_omit u) (u_force u) (u_query u) (u_fragment u) (u_rawfragment u)))
  end.
