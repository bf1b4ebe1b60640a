(* Model of /repo/net/sdp/packet.go *)
From Coq Require Import String.
From Verif Require Import Base GoStrings.

(* packet.go:20-31  Media; the unexported audio flag is always false (packet.go:50 is reached for video only) *)
Record media := mkMedia {
  m_type : Z; m_timescale : Z; m_control : bytes; m_rtpmap : Z; m_config : bytes; m_sprops : list bytes;
  m_payload_type : Z; m_sizelength : Z; m_indexlength : Z }.
Definition media0 : media := mkMedia 0 0 [] 0 [] [] 0 0 0.

Definition with_type (m : media) x := mkMedia x (m_timescale m) (m_control m) (m_rtpmap m) (m_config m) (m_sprops m) (m_payload_type m) (m_sizelength m) (m_indexlength m).
Definition with_timescale (m : media) x := mkMedia (m_type m) x (m_control m) (m_rtpmap m) (m_config m) (m_sprops m) (m_payload_type m) (m_sizelength m) (m_indexlength m).
Definition with_control (m : media) x := mkMedia (m_type m) (m_timescale m) x (m_rtpmap m) (m_config m) (m_sprops m) (m_payload_type m) (m_sizelength m) (m_indexlength m).
Definition with_rtpmap (m : media) x := mkMedia (m_type m) (m_timescale m) (m_control m) x (m_config m) (m_sprops m) (m_payload_type m) (m_sizelength m) (m_indexlength m).
Definition with_config (m : media) x := mkMedia (m_type m) (m_timescale m) (m_control m) (m_rtpmap m) x (m_sprops m) (m_payload_type m) (m_sizelength m) (m_indexlength m).
Definition with_sprops (m : media) x := mkMedia (m_type m) (m_timescale m) (m_control m) (m_rtpmap m) (m_config m) x (m_payload_type m) (m_sizelength m) (m_indexlength m).
Definition with_payload_type (m : media) x := mkMedia (m_type m) (m_timescale m) (m_control m) (m_rtpmap m) (m_config m) (m_sprops m) x (m_sizelength m) (m_indexlength m).
Definition with_sizelength (m : media) x := mkMedia (m_type m) (m_timescale m) (m_control m) (m_rtpmap m) (m_config m) (m_sprops m) (m_payload_type m) x (m_indexlength m).
Definition with_indexlength (m : media) x := mkMedia (m_type m) (m_timescale m) (m_control m) (m_rtpmap m) (m_config m) (m_sprops m) (m_payload_type m) (m_sizelength m) x.

(* packet.go:63-73  key:value *)
Definition attr_colon (m : media) (field : bytes) : media :=
  match split2 58 field with
  | [key; val] => if beq key (bs "control") then with_control m val
                  else if beq key (bs "rtpmap") then with_rtpmap m (fst (atoi val)) else m
  | _ => m
  end.

(* packet.go:74-86  name/clock *)
Definition attr_slash (m : media) (field : bytes) : media :=
  match split_on 47 field with
  | key :: val :: _ =>
      let m := if beq (to_upper key) (bs "MPEG4-GENERIC") then with_type m 97
               else if beq (to_upper key) (bs "H264") then with_type m 96 else m in
      match atoi val with (i, None) => with_timescale m i | _ => m end
  | _ => m
  end.

(* packet.go:90-108  one parameter of a ;-list.  Decoding errors are ignored and leave the partial output. *)
Definition attr_param (m : media) (field : bytes) : media :=
  match split2 61 field with
  | [k; val] =>
      let key := trim_space k in
      if beq key (bs "config") then with_config m (fst (hex_decode val))
      else if beq key (bs "sizelength") then with_sizelength m (fst (atoi val))
      else if beq key (bs "indexlength") then with_indexlength m (fst (atoi val))
      else if beq key (bs "sprop-parameter-sets") then
        with_sprops m (m_sprops m ++ map (fun f => fst (b64_decode f)) (split_on 44 val))
      else m
  | _ => m
  end.

(* packet.go:87-110 *)
Definition attr_semi (m : media) (field : bytes) : media :=
  match split_on 59 field with
  | a :: b :: r => fold_left attr_param (a :: b :: r) m
  | _ => m
  end.

(* packet.go:62-111  one field of an a= line *)
Definition attr_field (m : media) (field : bytes) : media := attr_semi (attr_slash (attr_colon m field) field) field.

(* packet.go:36  the feeds closed so far and the one the pointer m designates (always the last; None = nil) *)
Definition sdp_state := (list media * option media)%type.
Definition all_feeds (s : sdp_state) : list media :=
  match s with (done, Some m) => done ++ [m] | (done, None) => done end.

(* packet.go:40-114  one line *)
Definition sdp_line (s : sdp_state) (line : bytes) : res sdp_state :=
  match split2 61 (trim_space line) with
  | [key; val] =>
      let fields := split2 32 val in
      if beq key (bs "m") then
        if beq (hd [] fields) (bs "video") then
          match fields with
          | [_; f1] =>
              let m := match split_on 32 f1 with
                       | _ :: _ :: pt :: _ => with_payload_type media0 (fst (atoi pt))
                       | _ => media0
                       end in
              Ok (all_feeds s, Some m)
          | _ => Panic                                                   (* fields[1] out of range *)
          end
        else Ok (all_feeds s, None)
      else if beq key (bs "a") then
        match s with
        | (done, Some m) => Ok (done, Some (fold_left attr_field fields m))
        | (done, None) => Ok (done, None)
        end
      else Ok s
  | _ => Ok s
  end.

Fixpoint sdp_lines (s : sdp_state) (lines : list bytes) : res sdp_state :=
  match lines with
  | [] => Ok s
  | l :: r => let! s' := sdp_line s l in sdp_lines s' r
  end.

(* packet.go:35-117  Parse *)
Definition sdp_parse (buf : bytes) : res (list media) :=
  let! s := sdp_lines ([], None) (split_on 10 buf) in Ok (all_feeds s).
