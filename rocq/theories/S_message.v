(* Specification: RTSP and HTTP messages (RFC 2326 4, 15; RFC 7230 3.2) as text. *)
From Coq Require Import String.
From Verif Require Import Base GoStrings M_conn.

(* ---- header maps ---- *)
Definition token (k : bytes) : Prop := Forall (fun c => token_byte c = true) k.
Definition same_name (a b : bytes) : bool := beq (map lower1 a) (map lower1 b).
Inductive hop := HSet (k v : bytes) | HDel (k : bytes).
Definition hop_name (o : hop) : bytes := match o with HSet k _ => k | HDel k => k end.
(* the value under a name after a history: that of the last operation on the name in any spelling *)
Definition spec_get (ops : list hop) (k : bytes) : bytes :=
  fold_left (fun v o => match o with
                        | HSet k' v' => if same_name k k' then v' else v
                        | HDel k' => if same_name k k' then [] else v
                        end) ops [].

(* ---- reading a message off its text ---- *)
(* the text up to the first CRLF, and after it *)
Fixpoint cut_crlf (s : bytes) : option (bytes * bytes) :=
  match s with
  | [] => None
  | a :: r =>
      match r with
      | b :: r' => if (a =? 13) && (b =? 10) then Some ([], r')
                   else match cut_crlf r with Some (l, t) => Some (a :: l, t) | None => None end
      | [] => None
      end
  end.
(* "name: value" *)
Definition cut_field (l : bytes) : option (bytes * bytes) :=
  match cut 58 l with Some (k, 32 :: v) => Some (k, v) | _ => None end.
(* fields up to the blank line, and the text after it *)
Fixpoint read_fields (fuel : nat) (s : bytes) : option (list (bytes * bytes) * bytes) :=
  match fuel with
  | O => None
  | S f =>
      match cut_crlf s with
      | Some ([], rest) => Some ([], rest)
      | Some (l, rest) => match cut_field l, read_fields f rest with
                          | Some kv, Some (kvs, t) => Some (kv :: kvs, t)
                          | _, _ => None
                          end
      | None => None
      end
  end.
(* first line, fields, content *)
Definition read_message (s : bytes) : option (bytes * list (bytes * bytes) * bytes) :=
  match cut_crlf s with
  | Some (l, rest) => match read_fields (length s) rest with
                      | Some (kvs, t) => Some (l, kvs, t)
                      | None => None
                      end
  | None => None
  end.

(* text that fits on a line *)
Definition line_text (s : bytes) : Prop := ~ In 13 s /\ ~ In 10 s.
Definition field_ok (e : bytes * bytes) : Prop := fst e <> [] /\ line_text (fst e) /\ ~ In 58 (fst e) /\ line_text (snd e).

(* ---- a response as a server sends it ---- *)
Record sfield := mkField { f_name : bytes; f_blank : bytes; f_value : bytes }.
Definition sfield_ok (f : sfield) : Prop :=
  token (f_name f) /\ f_name f <> [] /\ Forall (fun c => c = 32) (f_blank f) /\
  line_text (f_value f) /\ trim_space (f_value f) = f_value f.
Definition sfield_text (f : sfield) : bytes := f_name f ++ 58 :: f_blank f ++ f_value f ++ [13; 10].
Definition response_text (proto : bytes) (code : Z) (reason : bytes) (fields : list sfield) (body : bytes) : bytes :=
  proto ++ 32 :: itoa code ++ 32 :: reason ++ [13; 10] ++ flat_map sfield_text fields ++ [13; 10] ++ body.
Definition field_value (fields : list sfield) (k : bytes) : bytes :=
  spec_get (map (fun f => HSet (f_name f) (f_value f)) fields) k.
(* the content is announced by Content-Length *)
Definition content_ok (fields : list sfield) (body : bytes) : Prop :=
  match body with
  | [] => forall n, atoi (field_value fields (bs "Content-Length")) = (n, None) -> n <= 0
  | _ => field_value fields (bs "Content-Length") = itoa (zlen body)
  end.
Definition sent (s : bytes) : stream := map Some s.
