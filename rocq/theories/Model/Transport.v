(** Messages on their way through the brokers.
    Modelled code: pkg/extensions/brokers/nats/nats.go:84-102 and 126-146, natsjetstream/natsjetstream.go:207-223 and 260-290 (with the header conversions
    of Codec.v), kafka/kafka.go:159-169 and 297-311, 331-345; pkg/extensions/versioning/wrapper.go:79-87 through Versioning.v.
    Outside of the repository, from the source of the libraries that go.mod names: github.com/nats-io/nats.go v1.31.0, nats.go [headerBytes],
    [DecodeHeadersMsg], [readMIMEHeader]; net/http [Header.Write]; golang.org/x/net/http/httpguts [ValidHeaderFieldName]; net/textproto [TrimString],
    [Reader.ReadLine].
    Simplified: payloads and Kafka's headers are bytes that arrive as they are; a status in the first line of the NATS headers, which only the server
    writes, is an error here. *)
From stdpp Require Import gmap list strings.
From Coq Require Import Ascii String NArith.
From Verif.Model Require Import Codec.
Local Open Scope string_scope.

(** httpguts.isTokenTable, ValidHeaderFieldName. *)
Definition between (lo hi n : N) : bool := (N.leb lo n && N.leb n hi)%bool.
Definition token_char (a : ascii) : bool :=
  let n := N_of_ascii a in
  (N.eqb n 33 || between 35 39 n || between 42 43 n || between 45 46 n || between 48 57 n || between 65 90 n || between 94 122 n || N.eqb n 124 || N.eqb n 126)%bool.
Fixpoint all_chars (f : ascii -> bool) (s : string) : bool := match s with "" => true | String a r => (f a && all_chars f r)%bool end.
Definition valid_name (s : string) : bool := match s with "" => false | _ => all_chars token_char s end.

Definition CR : ascii := "013". Definition LF : ascii := "010". Definition SP : ascii := " ". Definition TAB : ascii := "009".
Definition CRLF : string := String CR (String LF "").
(** net/http headerNewlineToSpace. *)
Fixpoint newlines_to_spaces (s : string) : string :=
  match s with "" => "" | String a r => String (if (Ascii.eqb a LF || Ascii.eqb a CR)%bool then SP else a) (newlines_to_spaces r) end.
(** textproto.isASCIISpace, TrimString. *)
Definition space (a : ascii) : bool := (Ascii.eqb a SP || Ascii.eqb a TAB || Ascii.eqb a LF || Ascii.eqb a CR)%bool.
Fixpoint trim_left (f : ascii -> bool) (s : string) : string :=
  match s with "" => "" | String a r => if f a then trim_left f r else s end.
Fixpoint trim_right (f : ascii -> bool) (s : string) : string :=
  match s with
  | "" => ""
  | String a r => match trim_right f r with "" => if f a then "" else String a "" | r' => String a r' end
  end.
Definition clean (v : string) : string := trim_right space (trim_left space (newlines_to_spaces v)).

(** http.Header.Write: the headers in the order [l] (that of their names); those whose name is not valid are left out. *)
Fixpoint write_values (k : string) (vs : list string) (rest : string) : string :=
  match vs with [] => rest | v :: vs => k +:+ (": " +:+ (clean v +:+ (CRLF +:+ write_values k vs rest))) end.
Fixpoint write_headers (l : list (string * list string)) (rest : string) : string :=
  match l with
  | [] => rest
  | (k, vs) :: l => if valid_name k then write_values k vs (write_headers l rest) else write_headers l rest
  end.
(** nats.go [headerBytes]: no bytes when there are no headers. *)
Definition magic : string := "NATS/1.0".
Definition header_bytes (l : list (string * list string)) : string :=
  match l with [] => "" | _ => magic +:+ (CRLF +:+ write_headers l CRLF) end.

(** textproto.Reader.ReadLine: up to the next line feed, without it and a carriage return before it; an error at the end. *)
Fixpoint cut (c : ascii) (s : string) : option (string * string) :=
  match s with
  | "" => None
  | String a r => if Ascii.eqb a c then Some ("", r) else match cut c r with Some (x, y) => Some (String a x, y) | None => None end
  end.
Fixpoint drop_cr (s : string) : string :=
  match s with "" => "" | String a "" => if Ascii.eqb a CR then "" else s | String a r => String a (drop_cr r) end.
Definition read_line (s : string) : option (string * string) :=
  match s with "" => None | _ => match cut LF s with Some (x, r) => Some (drop_cr x, r) | None => Some (s, "") end end.

(** nats.go [readMIMEHeader]. Every turn reads a line, so that the length of the text is fuel enough. *)
Definition blank (a : ascii) : bool := (Ascii.eqb a SP || Ascii.eqb a TAB)%bool.
Definition add_value (k v : string) (m : gmap string (list string)) : gmap string (list string) := <[k := (default [] (m !! k) ++ [v])%list]> m.
Fixpoint read_headers (fuel : nat) (s : string) (m : gmap string (list string)) : option (gmap string (list string)) :=
  match fuel with
  | O => None
  | S fuel =>
      match read_line s with
      | None => None
      | Some ("", _) => Some m
      | Some (kv, rest) =>
          match cut ":" kv with
          | None => None
          | Some ("", _) => read_headers fuel rest m
          | Some (k, v) => read_headers fuel rest (add_value k (trim_left blank v) m)
          end
      end
  end.
(** nats.go [DecodeHeadersMsg], and [processMsg], where a message without header bytes has no headers. *)
Definition decode_headers (s : string) : option (gmap string (list string)) :=
  match s with
  | "" => Some ∅
  | _ => match read_line s with
         | Some (l, rest) => if String.eqb l magic then read_headers (S (String.length rest)) rest ∅ else None
         | None => None
         end
  end.

Inductive broker := Kafka | Nats.
(** What a message with the headers [h] arrives with: [h'], the maps being walked in any order. *)
Definition carries (b : broker) (h h' : gmap string string) : Prop :=
  match b with
  | Kafka => exists l, l ≡ₚ map_to_list h /\ h' = kafka_received (kafka_headers l)
  | Nats => exists l l1 w l2, l ≡ₚ map_to_list h /\ l1 ≡ₚ map_to_list (nats_headers l) /\ decode_headers (header_bytes l1) = Some w /\
              l2 ≡ₚ map_to_list w /\ h' = nats_received l2
  end.
