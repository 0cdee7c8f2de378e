# Formal model of ckube in Rocq: design

Subject: DaoCloud/ckube, source in /repo, read as text. Prover: Coq 8.16.1.
All paths below are relative to /repo for Go files and to rocq/theories for `.v` files.

## Conventions of the model

* A Go `string` is a list of bytes (`list ascii`), never a list of characters.
* A Go `map` is a std++ `gmap`. Where Go ranges over a map, the model takes the iteration
  order as a parameter (any permutation of the entries) and the theorems quantify over it.
* `int64` is `Z`; each place where the Go code can overflow applies an explicit wrap.
* A Go `error` is a value; a Go panic is a distinct outcome.
* Model files (`Model*.v`) contain definitions only, each citing the Go lines it follows.
  `Spec*.v` files contain the independent specifications. `Proofs*.v` contain lemmas.
  `Props*.v` contain the theorems named in MANIFEST.json, each followed by
  `Print Assumptions` and a concrete `Example`.

## Plan per property

| id | modelled | how proved |
|----|----------|------------|
| C01 | SetSearchWithParts, SearchParts (page.go 30-59, 179-188) | induction on parts/bytes; converse: output parts never violate the condition |
| C02 | SearchParts | equality with a recursive grammar, induction on the text |
| C03 | Match (page.go 68-139) | case analysis and induction on the part list |
| C04 | Match, parseValue, strconv.Quote, strings.Contains | equivalence with `exists a b, s = a ++ sub ++ b`, any order of map entries |
| C05 | the same, Quote byte by byte | string combinatorics on quoted text |
| C06 | label lexer, parser, validation and matching of k8s 0.21; ParseToLabelSelector | compositional semantics |
| C07-C09 | Clusters, Namespaces, SearchSelector, SetSearchSelector, GetClusters | print/parse round trip (C12) plus C01 |
| C10 | base64 RawStdEncoding encode/decode | induction by three bytes |
| C11 | SplittingValue, MergeValues, sort.Strings | sortedness of zero-padded offsets; witness above the limit |
| C12 | FormatLabelSelector, lexer, parser | induction over the printed text |
| C13-C15 | QueryListOptions, parsePaginateAndLabelsAndClean, json of Paginate | composition of C10-C12 and a JSON round trip |
| C16 | ParseToLabelSelector, LabelSelectorAsSelector | map fold induction |
| C17-C19, C26-C28, C56 | memory.go store | refinement to a function of the history |
| C18, C20-C25, C54, C55 | Query, sortObjs, Go 1.19 sort.Slice | permutation and sortedness invariants |
| C29 | watchResources event loop | invariant over interleaved traces |
| C30, C31 | lock-level small-step semantics of the store | invariant over all schedules |
| C32-C41 | proxy.go | case analysis over requests; arithmetic |
| C42 | proxyPassWatch | induction on the stream |
| C43 | route.go, registerRoutes | analysis of the route table |
| C44, C51 | deploy2service.go, subset.go | set equality |
| C45, C46 | watcher.go ObjType, kind derivation | map algebra, string lemmas |
| C47, C48 | fake_ckube.go | refinement, trace filtering |
| C49 | ckube-plugin main | analysis of the argument loop |
| C50, C62 | loadFromConfig, the reload loop, ResetStore, the reads of the handler | invariant over all interleavings of reloads, watchers and requests |
| C52, C53 | composition of the above | computed witnesses and general lemmas |
| C54, C55, C57 | sortObjs: errors and malformed specifications | error independent of order; which pairs a sort compares |
| C58 | client options, proxy and cache together | composition of C13, C36, C38 |
| C59 | the route table of gorilla/mux | first match over the templates |
| C60 | registerRoutes' handler function, jsonResp, errorProxy, the response writer | composition of C17, C32, C35, C38, C43, C58, C59 |
| C61 | locks of the store | ranking of locks, decreasing measure |
| C63 | loadFromConfig and common.Config | decoding of JSON, case analysis |
| C64 | fs_watcher.go | induction on the events |
| C65 | watchResources, Stop | invariant over interleaved traces |
| C66 | the gauge of utils/prommonitor under reload | invariant over interleaved traces, executions as witnesses |
| C67 | cmd/ckubecli with packages flag and strconv | grammars of integers and flags; composition of C07, C13, C15 |
| C68 | fake_ckube.go as HTTP servers of one process | simulation by an object store, composition of C47 and C60; round trip of JSON pages |
| C69 | scheme registration and decoding of watch events (watcher.go 114-136), the text of objects and lists | composition of C29, C45, C46 and C60 over the bytes of a stream |
| C70 | statusWriter, loggingMiddleware (server.go 40-80) | invariant: the status noted is the status sent; induction over runs |
| C71 | index expressions (memory.go 354-391): text, fields and `[*]` of jsonpath | parser round trip; paths through JSON; decimal digits; composition of C04, C20, C45 and C69 |
| C72 | strconv.ParseFloat as called by sortObjs (memory.go 237-270) | nearest double on a grid, uniqueness and monotonicity; composition of C22, C55 and C71 |
| C73 | index expressions written as Go templates (memory.go 354-391) | lexer and parser round trip for every spelling; big-step meaning against the interpreter; composition of C20, C45 and C69 |
| C74 | replies of the running process: the handler of server.go with the variables it reads, and the reload loop | projection of an execution on one watcher; simulation by a process that is not reloaded; composition of C50, C62, C65 and C69 |
| C75 | watch (fake_ckube.go 318-369) and the sends of proxy (454-478) | invariants of a transition system with channels and a lock; traces; executions as witnesses |
| C76 | no new code: several requests of C60 with a changing cache | the pages are cut from lists of names sorted in the same way; the position of a name counts the names before it |
| C77 | watchResources against an API server with a log of changes | refinement of C29 with positions in the log; a decreasing measure over fair infinite executions |
| C78 | main, reloads, the watchers of all loads, requests and API servers together | a simulation of each load by C77, the invariants of C50/C74, and a decreasing measure for the reload |
| C79 | no new code: all replies of C60 over the caches of C77 and C78 | replies depend on the cache only through the entries it has; the entries are those of a cache filled afresh |
| C80 | no new code: encoding/json as it is used by all readers of JSON | an RFC 8259 grammar of its own, with UTF-8, escapes, surrogates, numbers, white space and nesting; what the readers make of members |
| C81 | no new code: the Kubernetes selector lexer and parser behind kube/label.go as all readers of selectors use it | a grammar of its own (lexemes, keys, values, requirements) from text to requirements; list and advanced search end to end |
| C82 | the counter of reloads and the gauge up, in main's loop | the invariant of C50 with the counter in it; loads are traced to the reload that made them; what is left to do of a reload decreases in fair executions |
| C83 | nginx.conf, the gateway of the image | the expression of the location as a set of texts, compared with the paths of C59; composition with C59 and C60 |

## Trusted base

* Coq's kernel, run again by coqchk.
* `Print Assumptions` prints "Closed under the global context" for every theorem named in
  MANIFEST.json (checked for all of them together, and again after each theorem in `Props*.v`).
  No axiom is used. Loading std++ also loads `Coq.ssr.ssrunder`, whose module `Under_rel` declares
  `Under_rel`, `Under_rel_from_rel`, `Under_relE`, `Over_rel`, `over_rel`, `over_rel_done` and
  `under_rel_done` as parameters of a sealed module; a checker that lists the axioms of all loaded
  files lists these seven, and no theorem depends on them.
* That the model follows the Go text. /repo has no vendored libraries, so the behaviour of Go 1.19
  and of the libraries is modelled from knowledge of their source:
  strconv.Quote, strconv.ParseInt, strconv.ParseFloat (decimal texts), package flag, strings.*, net/url query parsing and encoding, encoding/base64, encoding/json
  (scanner, string decoding, Marshal with HTML escaping), sort.Slice (pdqsort, including its
  pseudo-random shuffles), k8s.io/apimachinery v0.21.0 labels (lexer, parser, validation,
  formatting, matching) and LabelSelector conversion, gorilla/mux v1.8.0 matching,
  samber/lo v1.27.0, the text form of delete and list options, the net/http ResponseWriter (first
  status wins, a write implies 200, a status that has not three digits panics), which statuses DoRaw
  and Stream of client-go 0.21 accept, and how client-go 0.21 decodes watch events (StreamWatcher,
  the JSON serializer, WithoutVersionDecoder, Scheme.AddKnownTypeWithName), client-go 0.21 jsonpath
  (parser, evaluation and printing of text, fields and `[*]`) and fmt.Fprint of an integral float64, maps and slices, and text/template
  (lexer, parser and execution of text, fields, string constants, pipes and if/else) with `default`, `quote` and
  `join` as memory.go defines them.

### What is modelled

| Go file | functions | model |
|---------|-----------|-------|
| page/page.go | all | ModelPage, ModelQuery, ModelProxy |
| kube/label.go | all | ModelLabels, ModelQuery |
| store/memory/memory.go | all; sequentially, and lock by lock; index expressions; numbers | ModelStore, ModelConc, ModelPath, ModelTmpl, ModelNumber |
| api/proxy.go | all | ModelProxy, ModelQuery, ModelUrl |
| api/extend/deploy2service.go | all | ModelExtend |
| utils/subset.go, utils/fs_watcher.go | IsSubsetOf, the event loop | ModelExtend, ModelReload |
| server/route.go, server/server.go | route table, registerRoutes, jsonResp, statusWriter, loggingMiddleware, ResetStore | ModelServer, ModelServe, ModelAccess, ModelReload, ModelLive |
| common/config.go | all | ModelProxy, ModelReload |
| watcher/watcher.go | watchResources, Start, Stop, ObjType, the scheme | ModelWatcher, ModelObjType, ModelCodec |
| cmd/cacheproxy/main.go | loadFromConfig, main's reload loop | ModelReload |
| utils/prommonitor/metrics.go | the gauge Resources, with Reset; ConfigReload and Up | ModelStore, ModelGauge, ModelCounters |
| nginx.conf, entrypoint.sh | locations, choice of the backend, Authorization header | ModelGateway |
| cmd/ckube-plugin/main.go | main | ModelPlugin |
| cmd/ckubecli/main.go | main | ModelCli |
| pkg/client/fake/fake_ckube.go | proxy, watch, Clean; NewFakeCKubeServer, the routes, the discovery pages | ModelFake, ModelFakeServer, ModelStream |

### What is not modelled, and what is a parameter

* `log`, the `examples`, `kube/kube.go` (a copy of client-go loading rules), the
  text format of the metrics page (client_golang) and its own metrics.
* The record `env` (ModelStore): `strconv.ParseFloat` with the order of floats, the value an index
  expression (jsonpath) has on an object, and which runes `strconv.Quote` prints as they are. A
  jsonpath that does not parse gives the empty value. ModelPath defines this value for expressions of
  text, fields and `[*]` (all that the configurations in /repo use), ModelTmpl for Go templates of text,
  fields, string constants, pipes, if/else, `default`, `quote` and `join`; other jsonpath and templates, the text
  of numbers other than integers of at most 53 bits, and of null, stay parameters (`jpenv`, `e_eval`).
  ModelNumber defines ParseFloat with float64 as integers in units of 2^-1074; texts with `_`, `x` or `X`
  stay a parameter.
* Below the client-go boundary nothing is modelled: a proxied request is a value (cluster, method,
  path, query, body) and the answer of the API server is an input (`apis` in ModelServe); retries of
  client-go are not modelled. Headers of the client are not
  forwarded by the code and not modelled.
* Messages of errors and status objects are modelled where a property mentions them; the types and
  priorities of table columns are not.
* ModelConc: the mutex of the outermost map (written only at construction) and the gauge are left
  out; one call per goroutine.
* ModelFollow: the API server behind a watch is an assumption, not code of /repo: a watch without
  resourceVersion sends every object there is, in any order, and then every change.
* ModelWhole: each watch has an API server of its own as in ModelFollow; that those of two loads have the same
  changes is not required.
* ModelWatcher: each call of the store is one step (C30, C31 justify this); time is not modelled.
* ModelObjType: the text of a float64 and of an RFC 3339 time are parameters with laws (`lawful`),
  for which an instance is given; `managedFields` is not modelled.
* ModelCodec: the types the scheme has from the start, and the decoding of their Go structs, are the
  record `codec`; how the bytes of a stream are split into events, and the frames of a stream, are not
  modelled. For these types only what C69_builtin says is proved about the text of a reply.
* ModelFake: the bytes of a stored object (`marshal`) are a parameter; the channel to a watcher is
  a non-blocking send, so which events a watcher receives is an input; requests run one at a time.
* ModelStream: which event a request sends is an input (C48_event says which); the change of the store is one step;
  a section that holds the lock for writing is one step, and a waiting writer does not hold up readers; the
  channel returned by Events and the moment of the time-out (any moment) are not modelled.
* ModelReload: the file system, YAML parsing and client-go are the record `world`, constant during
  one load; reading or writing one variable is one step (in ModelLive the handler itself reads configuration and store in one) and steps are seen in order (the Go memory
  model gives no such guarantee: the code has data races on `cfg`, `store` and `clusterClients`).
* Memory exhaustion, stack overflow, timeouts and cancelled contexts.

## Findings

Each is a theorem about the faithful model; names end in `_refuted` when the expected property is
false, with a concrete witness.

Searching and selecting (page/page.go, kube/label.go)
1. `SetSearchWithParts` then `SearchParts` is not the identity: empty parts vanish and a part with a
   leading ';' merges with its neighbour (C01_roundtrip_refuted, C07_leading_semicolon_refuted).
2. A trailing single ';' becomes part of the last part (C02_trailing_separator_kept_refuted).
3. The value searched for is compared with the Go-quoted value, so `"`-adjacent and escaped text gives
   false matches (C05_exact_refuted).
4. In a selector, `a=1,a=2` means `a=2` (C06_, C16_repeated_equality_refuted).
5. `Clusters`/`Namespaces` keep only the first advanced part of a search
   (C07_second_advanced_part_lost_refuted, C53_second_part_dropped_refuted).
6. An odd number (at least 3) of empty values prints as a selector that does not parse back
   (C08_, C12_odd_empty_*_refuted).
7. `MergeValues` scrambles texts longer than 10024 bytes; a Paginate beyond about 7.5 kB arrives as
   another one without an error (C11_long_text_scrambled_refuted, C13_long_query_refuted).
8. `QueryListOptions` fails for searches whose base64 has '+' or '/' - any with '?' in the right
   place, '~', or non-ASCII letters (C15_question_mark_refuted).
9. A caller's own `ckube.daocloud.io/query=...` overrides the Paginate (C13_equals_query_wins_refuted).
10. `GetClusters` looks neither at the operator nor at `cluster=c`; such searches, or one with a space
    after ';', are combined with the default cluster and list nothing (C53).
11. A search beginning with ';;' fails as soon as the default cluster is added (C52).

Cache (store/memory/memory.go)
12. Ties are not stable between pages (C23_ties_unstable_refuted).
13. Page <= 0 with a size panics; a negative size and page*size overflow give other pages or a panic
    (C24, C25).
14. A sort item with two spaces silently turns sorting off (C57_two_spaces_refuted).
15. The gauge keeps the old number after Clean (C28_stale_after_clean_refuted).
16. A query over several namespaces is not a snapshot (C31_not_atomic_refuted).
17. The index annotation lacks namespace and name unless configured (C26); the Name column of a table
    is then null (C41).

Server (api, server)
18. With Page > 0 and no size the client computes a doubled total; with a size and no page and a label
    selector it computes 2*total - size (C36).
19. An invalid default cluster name lists all clusters (C35); an advanced search that ends in a white
    space the selector syntax does not know (a vertical tab) also lists all clusters
    (C35_white_space_refuted).
20. The options in the body of a DELETE are lost, dry run included (C40_dry_run_refuted).  With two members dryRun,
    a null in the second stands for the string of the first (C34_last_dry_run_refuted; encoding/json).
21. HEAD and OPTIONS, which the routes accept, panic on a proxied resource and are answered 500 (C33,
    C60_head_and_options); a successful status of the API server, such as 201, is answered as 200
    (C60_upstream_status_refuted).
22. `proxyPassWatch` writes a zero byte when a read returns nothing (C42_empty_read_refuted), loses a
    byte that comes together with the error, and drops an unfinished line when the client leaves (C42).
23. Any header that contains the token as a substring is accepted (C43_exact_token_refuted).
24. Writes to namespaced collections of named groups reach the proxy without their type (C59).
25. deploy2service matches pods of other deployments whose name shares a prefix, and ignores an
    invalid cluster name (C44_*_refuted).
26. With several cluster tags in one request, which one wins depends on map order (C39).

Watching and generic objects (watcher)
27. The first item of a new stream empties the cache also when it is an error or the end of the
    stream (C29_failed_stream_empties).
28. A type listed twice has two goroutines that empty each other's cache (C29_listed_twice_refuted).
29. `TrimRight(kind, "List")` strips letters, not the suffix (C46).
30. Generic objects: integers beyond 2^53 are rounded, an unreadable creationTimestamp loses the
    metadata after it, an unreadable deletionTimestamp changes on each round, a kind that is not a
    string panics (C45_*_refuted, C45_panics).

Fake server, plugin, reload
31. PUT uses the name in the body, not in the URL (C47_other_name_refuted); the answer of the fake
    server does not read back as the object (C47_answer_text_refuted); an invalid label selector
    panics in watch (C48_bad_selector).
32. The plugin with -l and --clusters panics or silently drops the clusters (C49_panics_refuted,
    C49_clusters_lost_refuted); an empty cluster name drops the restriction (C49_empty_name_refuted).
33. The configuration is replaced before store and clients, so a request can use a new default cluster
    with old clients (C50_configuration_refuted); the order of the two reads of the handler is not
    fixed by the language, and with the other order new clients meet the old store
    (C50_store_first_refuted); after a reload the cache starts empty (C50_cache_restarts).
34. The default cluster of the configuration file is ignored with a kubeconfig, and the current
    context may have no client (C63_default_without_client_refuted).
35. A configuration file removed for more than two seconds, or saved by renaming, is not noticed any
    more; with a service account nothing is ever reloaded (C64).
36. A reload resets the gauge after the new watcher has started: numbers the new watcher has already set
    are lost until the next event of the namespace (C66_lost_refuted), and an old goroutine that has
    already received an event sets the number of a type that is no longer configured, for good
    (C66_stale_refuted).
37. ckubecli ignores the error of Clusters: with an empty or invalid cluster name the restriction is
    dropped without a message (C67_clusters_lost_refuted, C67_clusters_lost_page_refuted).
38. The page /apis of the fake server shows no version of any group, as versions are appended to a copy of
    the group (fake_ckube.go:219-230; C68_no_versions, C68_versions_refuted), and every group and version
    lists all types (C68_groups_listed_refuted).
39. The fake server gives its clients the address 127.0.0.1 although it may listen on another one; an IPv6
    address loses its port and an address without colon is a panic (C68_address_refuted).
40. The configuration of fake servers is shared by the process: after a second server was created, Clean of
    the first rebuilds its store for the types of the second, and creating its objects closes the
    connection (C68_clean_refuted, C68_unconfigured_type).
41. A watch of the fake server whose selector does not parse closes the connection instead of answering 400
    (C68_watch_param, C68_ex_bad_watch); patches and sub-resources are refused as "cluster not found"
    (C68_not_served), although discovery lists the verb patch for every type (C68_resources).
42. A custom type whose kind ends in L, i, s or t (CertificateRequest, Prometheus) is never cached:
    its kind is registered without these letters, so every stream ends at its first event (C69_lost,
    C69_custom_kind_refuted). Requests for it are answered from the empty cache.
43. Objects of the types client-go knows are answered without `kind` and `apiVersion`, as the codec empties
    both when it decodes a watch event (C69_builtin, C69_builtin_kind_refuted); objects of custom types keep
    them, as `ObjType.GetObjectKind` returns a copy.
44. A configured custom type without a version is a panic when its watch starts (ModelCodec `register`); a list
    without objects is answered with `"items":null` (C69_list).
45. A number field from a million on is indexed in scientific form: a search for `x=1000000` does not find an
    object with `x: 1000000`, a search for `x=1e+06` does (C71_field, C71_digits_refuted).
46. Sorting by `key!int` compares float64: integers above 2^53 may be listed in the wrong order
    (C72_large_refuted), and one object with the text `NaN` leaves the others out of order without an error
    (C72_nan_refuted).
47. One object that lacks the field, or has a text there, makes every list sorted by it with `!int` fail for
    all clients, in any page (C72_missing, C72_numbers_only).
48. The access log has the status 0 for a watch that the client leaves before the first event
    (C70_status_refuted), and counts the body of a reply to HEAD, which is not sent (C70_length_refuted).
49. A template index of a field that an object lacks is the text `<no value>`: a search `x=value` finds these
    objects (C73_field, C73_absent_refuted); the same index as a jsonpath is empty (C71).
50. `default` formats every value with `%s`: a number 3 is indexed as `%!s(float64=3)`, so a search for exactly
    3 does not find it (C73_default, C73_default_refuted). `quote` of a missing field is `%!q(<nil>)` (C73_quote).
51. `join` of namespace and name gives an empty index for objects without a namespace, as a missing member is not
    a string (C73_join). After such an error the text written before it stays the index (C73_template,
    C73_ex_template).
52. A reload of a configuration that did not change (any write to the kubeconfig or the configuration file) makes
    cached objects not found until the new watcher has received them, since the new store is put in place empty
    and reads do not fall back to the API server (C74_restart_refuted).
53. If the name of the default cluster changes, a GET during the reload looks for the new name in the old store:
    404 for an object that both the old and the new store have (C74_mixed_refuted). The counter
    `ckube_requests_total` is registered and never incremented.
54. The fake server drops an event when the watch is still writing the one before, even if the requests come one
    after the other (C75_lost_refuted); after concurrent updates the last event of a stream need not be of the
    object that the store has (C75_order_refuted).
55. A watch of the fake server does not notice that its client has gone, and stays for ten minutes under the
    client's address. If a new watch has the same address, the time-out of the old one closes and removes the new
    one's channel: the new stream stays open and gets nothing more (C75_cut_refuted).
56. When the new watch then times out it closes a nil channel, which panics with `watchChanLock` held: from then on
    no request that sends an event is answered and no watch begins (C75_stuck_refuted).
57. Reading page after page is not safe while objects come and go, and nothing tells the client: pages are cut by
    position from the cache of the moment, without a continue token or a resource version. After a deletion
    before it, an object that was cached all the time is on no page (C76_skipped_refuted); after an addition before
    it, it is on two pages (C76_twice_refuted).
58. Replies follow a cluster but do not always catch up. If the last object of a type is deleted while a watch is
    being reopened, the new stream brings no first item, so Clean is not called and the deleted object is served
    until some object of the type is created or the stream is closed (C77_catches_up_refuted; an hour by the
    time-out of watcher.go:142). Every reopened stream makes unchanged objects 404 until they have arrived again
    (C77_gap_refuted). A client does not read its own writes (C77_own_writes_refuted).
59. A query that is base64 of a text that is no JSON is taken as no query: every object is listed and nothing tells
    the client (C80_bad_query; the error of json.Unmarshal in proxy.go:168 is dropped).
60. A NUL byte in a label selector or advanced search ends it: `a %00(((` is accepted and means `a`
    (C81_nul_refuted). A list of values that ends in two empty values, `k in (a,,)`, is refused though its parts are
    all legal (C81_two_empty_values_refuted). Both are in the Kubernetes parser that ckube calls.
61. `ckube_reload_config_total{status="success"}` going up by one after a change of the files does not mean that the
    change is in use: a reload that was under way when the files were changed is counted too (C82_one_more_refuted;
    C82_fresh says what to wait for). `ckube_requests_total` is declared (metrics.go:24-27) but nothing increments
    it, so the page never has it; the first load is in no counter.
62. PAGINATE_SPEC.md:53 says that an empty sort orders by uid and name; the code orders by cluster, namespace and
    name (memory.go:179-181, C21).
63. The gateway of the image puts the token of its service account in place of the client's Authorization header, so
    whoever reaches its port 80 acts with the rights of ckube (C83_no_credentials). For the same reason a token in
    ckube's configuration that is no part of the service account's shuts out all API reads through the gateway, those
    with the right token too (C83_right_token_refuted).
64. The gateway sends watches to the API server, but knows only values with 1 or true in them: watch=y, which ckube
    takes for a watch too, goes through ckube (C83_watch_y).

## Tests of the theorems

seeded/LOG.jsonl has one line per wrong program: the definition edited, the edit, the claim it
breaks, the theorems that failed and those tightened afterwards.
