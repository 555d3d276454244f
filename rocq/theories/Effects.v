(** Computations with a recorded trace of effects: [async] functions run to completion, with the
    externally visible actions (HTTP requests, verification hooks) in order. *)
From Verif Require Import Base.

Definition M (E A : Type) : Type := (list E * res A)%type.
Definition ret {E A} (a : A) : M E A := ([], Ok a).
Definition lift {E A} (r : res A) : M E A := ([], r).
Definition emit {E} (e : E) : M E unit := ([e], Ok tt).
Definition mbind {E A B} (m : M E A) (f : A -> M E B) : M E B :=
  match snd m with
  | Ok a => (fst m ++ fst (f a), snd (f a))
  | Err e => (fst m, Err e)
  end.
Notation "'let!' x ':=' m 'in' k" := (mbind m (fun x => k))
  (at level 200, x pattern, m at level 100, k at level 200, right associativity).

(** [http::Request<Vec<u8>>] and [http::Response<Vec<u8>>], as far as used. *)
Record http_req := mk_req {
  rq_method : string;
  rq_uri : string;
  rq_headers : list (string * string);
  rq_body : string
}.
Record http_resp := mk_resp { rs_status : N; rs_body : string }.

(** [AsyncHttpClient::execute], core/util/mod.rs:9-12: an arbitrary answer or transport error. *)
Definition http_client := http_req -> res http_resp.

(** [StatusCode::is_success]. *)
Definition is_success (s : N) : bool := ((200 <=? s) && (s <? 300))%N.

(** [base_request], core/util/mod.rs:14-16. *)
Definition base_headers : list (string * string) := [("Prefer", "OID4VP-1.0.0")].
