(** The HTTP endpoints.  Models protocols/http/mod.rs:10-58, health.rs:17-21 and
    prometheus.rs:16-25.

    axum answers HEAD on a route made with [get] without the body, any other method
    on a known path with 405 and any other path with 404.  The bodies of the
    OpenAPI pages are parameters. *)
From Coq Require Import List Bool NArith Ascii String.
From Verif Require Import Base TextModel.
Import ListNotations.
Local Open Scope list_scope.

Inductive http_method := Get | Head | OtherMethod.
Inductive response := Response (status : N) (body : text).

Definition newline : text := ["010"%char].

(** prometheus.rs:16-25 *)
Definition metrics (online : N) : text :=
  lit "# HELP ONLINE_CLIENTS Count of online clients" ++ newline ++
  lit "# TYPE ONLINE_CLIENTS gauge" ++ newline ++
  lit "ONLINE_CLIENTS " ++ show online ++ newline.

(** health.rs:17-21 *)
Definition health : text := lit "{""status"":""ok""}".

Section Router.
  Variable openapi_json api_html : text.

  (** http/mod.rs:41-58 [get_router]: the body of a path. *)
  Definition page (prometheus : bool) (online : N) (path : string) : option text :=
    if String.eqb path "/openapi.json" then Some openapi_json
    else if String.eqb path "/api" then Some api_html
    else if String.eqb path "/health" then Some health
    else if prometheus && String.eqb path "/metrics" then Some (metrics online)
    else None.

  Definition serve_http (prometheus : bool) (online : N) (m : http_method) (path : string) : response :=
    match page prometheus online path with
    | None => Response 404 []
    | Some b => match m with Get => Response 200 b | Head => Response 200 [] | OtherMethod => Response 405 [] end
    end.
End Router.
