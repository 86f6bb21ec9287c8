(** Specification: the reason phrases of HTTP, written out from the IANA registry with the names Python's [http.HTTPStatus] uses. *)
From Coq Require Import List NArith String.
From Verif Require Import MBase MPyStr.
Import ListNotations.
Local Open Scope N_scope.

(** The phrase of a status; nothing for a number that is not in the registry. *)
Definition registered_phrase (status : N) : pystr :=
  match status with
  | 100 => lit "Continue" | 101 => lit "Switching Protocols" | 102 => lit "Processing" | 103 => lit "Early Hints"
  | 200 => lit "OK" | 201 => lit "Created" | 202 => lit "Accepted" | 203 => lit "Non-Authoritative Information"
  | 204 => lit "No Content" | 205 => lit "Reset Content" | 206 => lit "Partial Content" | 207 => lit "Multi-Status"
  | 208 => lit "Already Reported" | 226 => lit "IM Used"
  | 300 => lit "Multiple Choices" | 301 => lit "Moved Permanently" | 302 => lit "Found" | 303 => lit "See Other"
  | 304 => lit "Not Modified" | 305 => lit "Use Proxy" | 307 => lit "Temporary Redirect" | 308 => lit "Permanent Redirect"
  | 400 => lit "Bad Request" | 401 => lit "Unauthorized" | 402 => lit "Payment Required" | 403 => lit "Forbidden"
  | 404 => lit "Not Found" | 405 => lit "Method Not Allowed" | 406 => lit "Not Acceptable"
  | 407 => lit "Proxy Authentication Required" | 408 => lit "Request Timeout" | 409 => lit "Conflict" | 410 => lit "Gone"
  | 411 => lit "Length Required" | 412 => lit "Precondition Failed" | 413 => lit "Request Entity Too Large"
  | 414 => lit "Request-URI Too Long" | 415 => lit "Unsupported Media Type" | 416 => lit "Requested Range Not Satisfiable"
  | 417 => lit "Expectation Failed" | 418 => lit "I'm a Teapot" | 421 => lit "Misdirected Request"
  | 422 => lit "Unprocessable Entity" | 423 => lit "Locked" | 424 => lit "Failed Dependency" | 425 => lit "Too Early"
  | 426 => lit "Upgrade Required" | 428 => lit "Precondition Required" | 429 => lit "Too Many Requests"
  | 431 => lit "Request Header Fields Too Large" | 451 => lit "Unavailable For Legal Reasons"
  | 500 => lit "Internal Server Error" | 501 => lit "Not Implemented" | 502 => lit "Bad Gateway"
  | 503 => lit "Service Unavailable" | 504 => lit "Gateway Timeout" | 505 => lit "HTTP Version Not Supported"
  | 506 => lit "Variant Also Negotiates" | 507 => lit "Insufficient Storage" | 508 => lit "Loop Detected"
  | 510 => lit "Not Extended" | 511 => lit "Network Authentication Required"
  | _ => []
  end.

(** A status line: the number, a space and the registered phrase, or the unregistered "499 Client Closed Request" that the Connect
    protocol uses for [canceled]. *)
Definition good_line (line : pystr) : Prop :=
  (exists status, line = dec_of_N status ++ lit " " ++ registered_phrase status) \/ line = lit "499 Client Closed Request".
