{"id": "C01", "title": "Search parts survive being written and read back", "statement": "Writing a list of search parts into a Paginate and reading the parts back returns exactly the same list whenever every part is non-empty and no part after the first starts with ';'. Outside that condition the list read back is always different from the one written.", "quantifier": "every list of byte strings", "why_tests_cant": "the escaping of ';' has to work for every position and run length of ';' in every part", "anchors": ["page/page.go:SetSearchWithParts", "page/page.go:SearchParts"]}
{"id": "C02", "title": "Search string syntax", "statement": "The parts of any search string are those of the documented grammar: ';;' is a literal ';', a single ';' separates, empty parts vanish; one exception, a single ';' that is the very last byte is kept as a literal instead of separating.", "quantifier": "every search string", "why_tests_cant": "index arithmetic of the scanning loop must be right for every placement of ';'", "anchors": ["page/page.go:SearchParts", "PAGINATE_SPEC.md"]}
{"id": "C03", "title": "Search is a conjunction of its parts", "statement": "An index matches a search iff it matches each part taken alone, in any order; the search reports an error iff some part alone reports one; a search with no part matches everything.", "quantifier": "every index map and every search string", "why_tests_cant": "ranges over unboundedly many parts and map contents", "anchors": ["page/page.go:Match"]}
{"id": "C04", "title": "Key and fuzzy search semantics", "statement": "A part key=v matches iff the Go-quoted index value of key contains v; an unknown key is an error; a part without key matches iff some quoted index value contains it; a leading '!' on the value gives exactly the complement, and never changes whether there is an error.", "quantifier": "every index map (any iteration order) and every part", "why_tests_cant": "the map is iterated in an unspecified order and values are arbitrary strings", "anchors": ["page/page.go:Match", "page/page.go:parseValue"]}
{"id": "C05", "title": "Exact match with quotes", "statement": "key=\"x\" (x printable ASCII without quote, backslash, ';' or trailing/leading problems) matches an index value v iff v = x, except that a value ending in a double quote followed by x also matches; in particular it is exact for every value without a double quote.", "quantifier": "every value and every printable x", "why_tests_cant": "depends on the escaping of every possible value", "anchors": ["page/page.go:Match", "PAGINATE_SPEC.md"]}
{"id": "C06", "title": "Advanced search semantics", "statement": "A part __ckube_as__:SEL with a valid SEL matches an index iff every requirement of SEL holds of the index (in/notin/=/!=/exists/not exists with Kubernetes meaning); an invalid SEL is an error for every index; a SEL that repeats a key in '=' requirements is evaluated with only one of them.", "quantifier": "every selector text and every index map", "why_tests_cant": "all texts accepted by the label selector grammar", "anchors": ["page/page.go:Match", "kube/label.go:ParseToLabelSelector"]}
{"id": "C07", "title": "Clusters() restricts a search to the given clusters", "statement": "If Clusters(css) succeeds on a Paginate whose search has at most one advanced part and no part starting with a literal ';', an index matches the new search iff its cluster is one of css, it satisfies every requirement of the old advanced part that is not an in/notin/exists requirement on cluster, and it matches every other part. GetClusters then returns css sorted without duplicates.", "quantifier": "every Paginate (search text), every cluster list, every index map", "why_tests_cant": "must hold for all previous searches and all cluster names, through a print/parse round trip", "anchors": ["page/page.go:Clusters", "page/page.go:SetSearchSelector", "page/page.go:GetClusters"]}
{"id": "C08", "title": "Namespaces() restricts a search to the given namespaces", "statement": "The same as C07 for Namespaces(nss) and the key namespace, unless nss is three or a larger odd number of empty names (then the new search never parses).", "quantifier": "every Paginate, every namespace list, every index map", "why_tests_cant": "as C07", "anchors": ["page/page.go:Namespaces", "page/page.go:SetSearchSelector"]}
{"id": "C09", "title": "Clusters() and Namespaces() fail cleanly", "statement": "Clusters(css) fails iff the old advanced part does not parse, css is empty, or some name in css is empty or not a legal Kubernetes label value (Namespaces(nss) accepts empty names and otherwise fails in the same cases); on failure the Paginate is unchanged.", "quantifier": "every Paginate and cluster list", "why_tests_cant": "all names and all previous searches", "anchors": ["page/page.go:Clusters", "page/page.go:Namespaces"]}
{"id": "C10", "title": "Base64 transport of the query is lossless", "statement": "Decoding the unpadded standard base64 encoding of any byte string returns it, and the encoding has ceil(4n/3) characters of the standard alphabet.", "quantifier": "every byte string", "why_tests_cant": "all lengths and byte values", "anchors": ["page/page.go:QueryListOptions", "api/proxy.go:parsePaginateAndLabelsAndClean"]}
{"id": "C11", "title": "Long queries survive being cut into label values", "statement": "For every base64 text of at most 10024 bytes, SplittingValue gives distinct label values of at most 63 bytes and MergeValues of them, in any order, returns the text. From 10025 bytes on the offsets need five digits and there are texts that come back scrambled.", "quantifier": "every base64 text, every order of the parts", "why_tests_cant": "the order of zero-padded offsets as strings fails only beyond a length no test uses", "anchors": ["kube/label.go:SplittingValue", "kube/label.go:MergeValues"]}
{"id": "C12", "title": "Label selectors survive printing and parsing", "statement": "Printing a structured label selector that Kubernetes accepts, is not empty and has no value list of three or a larger odd number of empty values, and parsing the text again, gives a selector with the same equality map and the same requirements up to order and duplicate values, which therefore selects the same label sets.", "quantifier": "every structured selector", "why_tests_cant": "unbounded selectors, values that are keywords, empty values", "anchors": ["kube/label.go:ParseToLabelSelector", "page/page.go:SetSearchSelector", "api/proxy.go:parsePaginateAndLabelsAndClean"]}
{"id": "C13", "title": "List options carry the Paginate and the caller's selector to the server", "statement": "If QueryListOptions(opts, p) succeeds for a non-zero p whose JSON has at most 7518 bytes (10024 in base64) and the caller's selector has no '=' requirement on the query key, a server that parses the resulting label selector recovers exactly p's page, page size, total, sort and search, and is left with the caller's selector requirements and nothing else. A longer query can arrive as a different one without an error, and a query the caller wrote with '=' wins.", "quantifier": "every Paginate with valid UTF-8 strings and every caller selector", "why_tests_cant": "end-to-end over JSON, base64, splitting, printing, parsing", "anchors": ["page/page.go:QueryListOptions", "api/proxy.go:parsePaginateAndLabelsAndClean"]}
{"id": "C14", "title": "Wrapping list options again replaces the previous query", "statement": "QueryListOptions with a non-zero Paginate applied to the result of an earlier QueryListOptions gives the same selector text as applying it to the original options when the caller's keys are distinct, and in general a text that the server reads the same way.", "quantifier": "every options value and every pair of Paginates", "why_tests_cant": "all inputs", "anchors": ["page/page.go:QueryListOptions"]}
{"id": "C15", "title": "When list options cannot be built the caller is told", "statement": "For a non-zero Paginate QueryListOptions fails, and leaves the options unchanged, iff the caller's selector does not parse or the encoded query contains '+' or '/', which are not legal in label values; an ASCII sort and search can cause this only through '?', '~' or DEL.", "quantifier": "every Paginate and options value", "why_tests_cant": "depends on byte positions modulo three in the JSON text", "anchors": ["page/page.go:QueryListOptions"]}
{"id": "C16", "title": "Parsing a selector preserves its meaning", "statement": "ParseToLabelSelector gives a structured selector that selects the same label sets as the parsed requirements, provided no key has two '=' requirements; it fails on '<' and '>' requirements.", "quantifier": "every selector text and label set", "why_tests_cant": "all texts", "anchors": ["kube/label.go:ParseToLabelSelector"]}
{"id": "C17", "title": "The cache holds the last event for every object", "statement": "After any history of added/modified/deleted/clean calls for configured resource types, Get(type, cluster, namespace, name) returns the object of the last add or modify of that key that is not followed by its delete or by a clean of that type and cluster, and nothing otherwise.", "quantifier": "every finite history of store calls and every key", "why_tests_cant": "unbounded histories over nested lazily created maps", "anchors": ["store/memory/memory.go:OnResourceAdded", "store/memory/memory.go:OnResourceModified", "store/memory/memory.go:OnResourceDeleted", "store/memory/memory.go:Clean", "store/memory/memory.go:Get"]}
{"id": "C18", "title": "An unpaginated query returns exactly the matching cached objects", "statement": "A query with page size 0 and no error returns every cached object of the type (in the requested namespace, or all when empty) whose index matches the search, each once, and nothing else, whatever the order in which the maps are iterated.", "quantifier": "every history, query and map iteration order", "why_tests_cant": "Go map order is random; sets are unbounded", "anchors": ["store/memory/memory.go:Query"]}
{"id": "C19", "title": "Resource types, clusters and namespaces do not leak into each other", "statement": "A store call for one (type, cluster) changes no Get result for any other type or cluster; an add, modify or delete for one namespace or name changes no Get result of another.", "quantifier": "every state, call and key", "why_tests_cant": "all pairs of keys", "anchors": ["store/memory/memory.go:OnResourceAdded", "store/memory/memory.go:Clean", "store/memory/memory.go:Get"]}
{"id": "C20", "title": "Total and page content", "statement": "For page p>=1 and page size s>=1 with (p-1)*s+s below 2^63, a query without error returns Total equal to the number of matching objects, and as items exactly elements (p-1)*s to p*s-1 of the sorted list of matches.", "quantifier": "every history, query and iteration order", "why_tests_cant": "all sizes of the store, of pages and page numbers", "anchors": ["store/memory/memory.go:Query"]}
{"id": "C21", "title": "Pages of a default-sorted list are a partition", "statement": "With the default sort, the concatenation of pages 1..k of separate queries against the same store content is the first k*s elements of one fixed list, whatever iteration order each query saw: no object is missed or repeated.", "quantifier": "every history, page size, number of pages, and every iteration order of each query", "why_tests_cant": "each page is a separate query with its own random map order", "anchors": ["store/memory/memory.go:Query", "store/memory/memory.go:sortObjs"]}
{"id": "C22", "title": "Query results are sorted as requested", "statement": "With a valid sort and numeric values where !int is used, the items are ordered lexicographically by the sort keys, each ascending or descending as requested (numbers compared as float64, strings bytewise), for the actual Go 1.19 sort algorithm and although the comparison function answers true on ties.", "quantifier": "every list of objects, every sort specification", "why_tests_cant": "the comparator violates sort.Slice's contract, so no contract can be relied on; ranges over all lists", "anchors": ["store/memory/memory.go:sortObjs"]}
{"id": "C23", "title": "Pages under a sort with ties are not stable", "statement": "There are store contents and a user sort (by namespace) for which page 1 and page 2, queried without any change in between, repeat one object and miss another.", "quantifier": "exists: a store, a sort, two iteration orders", "why_tests_cant": "needs two adversarial map orders", "anchors": ["store/memory/memory.go:Query", "store/memory/memory.go:sortObjs"]}
{"id": "C24", "title": "Page 0 and negative pages", "statement": "PAGINATE_SPEC says page 0 means no pagination. For the plain query path a page size >= 1 with page <= 0 on a non-empty result makes the request panic (HTTP 500) instead; with page size 0 every page returns everything; a negative page size panics too, unless the page is negative and page * size (without overflow) reaches the number of matches, where the page is empty.", "quantifier": "every non-empty result set, every page <= 0, every page size", "why_tests_cant": "boundary behaviour for all values", "anchors": ["store/memory/memory.go:Query", "PAGINATE_SPEC.md"]}
{"id": "C25", "title": "Huge page numbers wrap around", "statement": "Page numbers whose offset overflows int64 are not treated as out of page: there are page numbers for which the query panics and page numbers for which it returns the first page again.", "quantifier": "exists: pages and sizes near 2^63", "why_tests_cant": "64-bit wrap-around", "anchors": ["store/memory/memory.go:Query"]}
{"id": "C26", "title": "Built-in index entries and cluster annotation", "statement": "Every cached Kubernetes object carries in its index cluster = the cluster it came from, namespace and name = its metadata, and is_deleted = whether it has a deletion timestamp, overriding configured entries of these names; the object returned carries the cluster annotation, all its other annotations are kept, and all index keys of objects of one type are the same.", "quantifier": "every object, cluster and index configuration, after every history", "why_tests_cant": "all configurations and objects", "anchors": ["store/memory/memory.go:buildResourceWithIndex", "page/page.go:GetObjectCluster"]}
{"id": "C27", "title": "Clean empties exactly one type in one cluster", "statement": "Clean(type, cluster) removes every object of that type and cluster, touches nothing else, and fails without effect iff no event of the type was ever seen from the cluster; it panics iff the type is not configured.", "quantifier": "every history", "why_tests_cant": "all states", "anchors": ["store/memory/memory.go:Clean"]}
{"id": "C28", "title": "Resource gauge", "statement": "After each added, modified or deleted event the ckube_resources_total gauge of its (cluster, type, namespace) equals the number of cached objects there; after any history without clean all gauges are right; after a clean they may be stale until the next event in that namespace.", "quantifier": "every history", "why_tests_cant": "unbounded histories", "anchors": ["store/memory/memory.go:OnResourceAdded", "store/memory/memory.go:Clean"]}
{"id": "C29", "title": "Reconnecting a watch resynchronises the cache", "statement": "For each watched (type, cluster), after a reconnected watch stream has delivered at least one item, the cached objects of that pair are exactly those obtained by replaying the events of the current stream from empty, whatever was cached before and whatever the other watches did; before the first item of the new stream the previous content is kept.", "quantifier": "every interleaving of the watch streams of all pairs, every number of reconnects", "why_tests_cant": "unbounded histories and interleavings", "anchors": ["watcher/watcher.go:watchResources", "store/memory/memory.go:Clean"]}
{"id": "C30", "title": "Concurrent Get is linearizable", "statement": "When any number of goroutines run added/modified/deleted/clean and Get concurrently, every Get returns the value its key had at some moment between its call and its return, at the granularity of the individual map locks.", "quantifier": "every interleaving of lock-protected steps of any number of threads", "why_tests_cant": "schedules", "anchors": ["store/memory/memory.go:syncResourceStore", "store/memory/memory.go:Get", "store/memory/memory.go:OnResourceAdded"]}
{"id": "C31", "title": "Concurrent queries see only real objects", "statement": "Every object that a query running concurrently with writers collects was stored under its key at some moment during the query; an object present and unmodified throughout is collected.", "quantifier": "every interleaving", "why_tests_cant": "schedules", "anchors": ["store/memory/memory.go:Query", "store/memory/memory.go:ForEach"]}
{"id": "C32", "title": "Which requests are answered from the cache", "statement": "A request is answered from the cache iff its selector parses (query payload included), its method is GET, its type is configured, and after removing cluster tags its only query parameters are labelSelector, timeoutSeconds, timeout and limit; every other request is forwarded.", "quantifier": "every request", "why_tests_cant": "all combinations of parameters, methods and types", "anchors": ["api/proxy.go:Proxy", "api/proxy.go:parsePaginateAndLabelsAndClean"]}
{"id": "C33", "title": "Writes are never answered from the cache", "statement": "A non-GET request is forwarded to exactly one cluster, with method, path, content type and (except for DELETE) body unchanged, or rejected with 404 when that cluster is unknown; a method other than POST, PUT, PATCH, DELETE and GET makes the handler panic.", "quantifier": "every request and state", "why_tests_cant": "all requests", "anchors": ["api/proxy.go:Proxy", "api/proxy.go:proxyPass"]}
{"id": "C34", "title": "Cluster tags reach the right cluster", "statement": "A get/create/update/patch/delete whose options were tagged with QueryXOptions(cluster) is served for or forwarded to exactly that cluster with the tag removed from what is forwarded; tagging options that already use the field fails and leaves them unchanged. For a delete this holds of every body whose last member dryRun is an array of strings that begins with the tag, with any other members, and the spelling of member names (capitals, long s, Kelvin sign) has no effect. That the last member dryRun decides alone is false: a null in it stands for the string of an earlier one.", "quantifier": "every cluster name, every request", "why_tests_cant": "all names", "anchors": ["page/page.go:QueryGetOptions", "page/page.go:QueryDeleteOptions", "api/proxy.go:parsePaginateAndLabelsAndClean"]}
{"id": "C35", "title": "Plain lists show only the default cluster", "statement": "A list request without cluster selection returns only objects of the default cluster when the default cluster's name is a legal label value and the search's first advanced part can be read; when the name is not (for example kubernetes-admin@kubernetes), the restriction is silently dropped and objects of all clusters are returned.", "quantifier": "every list request, store content and default cluster name", "why_tests_cant": "all names; the failure path only logs", "anchors": ["api/proxy.go:Proxy", "page/page.go:Clusters"]}
{"id": "C36", "title": "Remaining item count and reported total", "statement": "For page >= 1 and page size >= 1 inside the 63-bit range, a successful list reports remainingItemCount = max(0, total - page*size), and MakeupResPaginate on the client computes exactly the number of matching objects; without page and size the total is right, too; a page without a size reports twice the real total, and a size without page together with a label selector reports twice the total less the size.", "quantifier": "every result size, page and page size", "why_tests_cant": "all arithmetic combinations", "anchors": ["api/proxy.go:Proxy", "page/page.go:MakeupResPaginate"]}
{"id": "C37", "title": "Out-of-page requests", "statement": "With page >= 1 and size >= 1 in range, a list is rejected with 400 out of page iff page > 1 and (page-1)*size >= total.", "quantifier": "every total, page and size", "why_tests_cant": "all arithmetic combinations", "anchors": ["api/proxy.go:Proxy"]}
{"id": "C38", "title": "Label selector and pagination together", "statement": "With a label selector, the list contains the requested slice of the objects that match both search and selector, in sort order, and total counts those.", "quantifier": "every store, selector, search and page", "why_tests_cant": "all combinations", "anchors": ["api/proxy.go:Proxy"]}
{"id": "C39", "title": "Requests for unknown clusters go nowhere", "statement": "A forwarded request whose cluster has no client is answered 404 and nothing is sent to any API server; an empty cluster means the default cluster.", "quantifier": "every request and client set", "why_tests_cant": "all names", "anchors": ["api/proxy.go:proxyPass"]}
{"id": "C40", "title": "Delete options are lost", "statement": "A DELETE whose body carries no cluster tag is forwarded with an empty body, whatever options it contained: a dry-run delete becomes a real one. With a cluster tag the other options are forwarded unchanged.", "quantifier": "every delete request", "why_tests_cant": "all bodies", "anchors": ["api/proxy.go:parsePaginateAndLabelsAndClean"]}
{"id": "C41", "title": "Table output is rectangular", "statement": "For a list of cached objects of one type, the table has one row per object and as many cells per row as columns, the cell under each column is the value that the object's index annotation has for it, and rendering never panics.", "quantifier": "every list of cached objects of a type, every index configuration", "why_tests_cant": "map-to-column assignment over all key sets", "anchors": ["api/proxy.go:serverPrint"]}
{"id": "C42", "title": "Watch streams are relayed unaltered", "statement": "If the upstream reader returns one byte per successful read and no byte with its error, the client receives exactly the upstream bytes in order, in chunks ending in newline except the last; a reader allowed by io.Reader's contract to return a byte together with EOF loses that byte.", "quantifier": "every upstream byte sequence, every end", "why_tests_cant": "unbounded streams", "anchors": ["api/proxy.go:proxyPassWatch"]}
{"id": "C43", "title": "Token authentication covers every route but two", "statement": "With a token configured, every request other than GET /healthy and GET /metrics whose Authorization header does not contain the token is answered 401 without running its handler; without a token nothing is rejected; a header that contains the token anywhere is accepted.", "quantifier": "every method, path and header", "why_tests_cant": "all paths through the route table including the catch-all", "anchors": ["server/server.go:registerRoutes", "server/route.go:routeHandles"]}
{"id": "C44", "title": "Services of a deployment", "statement": "The custom endpoint returns exactly the cached services of the namespace and cluster with a non-nil selector contained in the labels of the first (by name) pod whose name contains the deployment name and is owned by a ReplicaSet; it can therefore use a pod of another deployment.", "quantifier": "every cache content and deployment name", "why_tests_cant": "all contents", "anchors": ["api/extend/deploy2service.go:Deploy2Service", "utils/subset.go:IsSubsetOf"]}
{"id": "C45", "title": "Generic objects survive decoding and encoding", "statement": "Encoding a generic cached object and decoding the result gives the same type, metadata and data, when data has no field named apiVersion, kind or metadata, numbers are exact in float64 and strings are valid UTF-8; decoding any text establishes those conditions, unless it has an unreadable or zero deletion time, and reads for each name the last member of the text; decoding panics iff apiVersion or kind is present and not a string; an unreadable time makes the rest of metadata get lost silently, and integers beyond 2^53 are rounded.", "quantifier": "every object and every text", "why_tests_cant": "all field sets and texts", "anchors": ["watcher/watcher.go:UnmarshalJSON", "watcher/watcher.go:MarshalJSON"]}
{"id": "C46", "title": "Kind derived from the list kind", "statement": "The kind registered for a watched type is the configured list kind without its List suffix iff the remaining name does not end in one of the letters L, i, s, t (DeploymentList becomes Deploymen).", "quantifier": "every list kind", "why_tests_cant": "all names", "anchors": ["watcher/watcher.go:watchResources", "common/config.go:GetGVRKind"]}
{"id": "C47", "title": "Fake server behaves like an object store", "statement": "In the fake server a create fails iff the object exists, update and delete fail iff it does not, and successful calls change exactly the addressed object, for requests whose URL name and body name agree.", "quantifier": "every sequence of requests", "why_tests_cant": "unbounded sequences", "anchors": ["pkg/client/fake/fake_ckube.go:proxy"]}
{"id": "C48", "title": "Fake server watch filtering", "statement": "A fake watch delivers exactly those received events whose type matches, whose namespace matches or that are watched across namespaces, and whose cluster is among the selected clusters if any are selected, with the right event type.", "quantifier": "every event sequence and watch request", "why_tests_cant": "unbounded sequences", "anchors": ["pkg/client/fake/fake_ckube.go:watch"]}
{"id": "C49", "title": "kubectl plugin label selector", "statement": "When the kubectl plugin is given both --clusters and a -l/--selector with a value, the argument it rewrites is never the selector's value: it panics or rewrites a later argument.", "quantifier": "every argument vector", "why_tests_cant": "all placements of flags", "anchors": ["cmd/ckube-plugin/main.go:main"]}
{"id": "C50", "title": "Configuration reload", "statement": "A failed reload leaves configuration, store, clients and watcher as they were; a request concurrent with a successful reload sees either the old pair, the new pair, or old clients with the new store, never new clients with the old store.", "quantifier": "every load outcome and every interleaving of the two assignments with the two reads", "why_tests_cant": "schedules", "anchors": ["cmd/cacheproxy/main.go:loadFromConfig", "cmd/cacheproxy/main.go:main", "server/server.go:ResetStore"]}
{"id": "C51", "title": "Subset test", "statement": "IsSubsetOf(sub, parent) holds iff every key of sub has the same value in parent.", "quantifier": "every pair of maps, every iteration order", "why_tests_cant": "all maps", "anchors": ["utils/subset.go:IsSubsetOf"]}
{"id": "C52", "title": "Search with a leading literal semicolon breaks default lists", "statement": "A list whose search is ';;x' (find the literal text ;x) gets an error once the server adds the default cluster restriction, although the same search is valid on its own.", "quantifier": "exists: a search", "why_tests_cant": "interaction of escaping with a prepended part", "anchors": ["page/page.go:SetSearchSelector", "api/proxy.go:Proxy"]}
{"id": "C53", "title": "Cluster selections the server does not recognise", "statement": "A search that selects a cluster with cluster=c, or with the documented space after ';', is combined with the default cluster and thus returns nothing for any other cluster; a second advanced part is silently dropped when the default cluster is added.", "quantifier": "every other cluster name / exists", "why_tests_cant": "interaction of several parsers", "anchors": ["page/page.go:GetClusters", "page/page.go:SearchSelector", "api/proxy.go:Proxy"]}
{"id": "C54", "title": "Sort specification errors do not depend on chance", "statement": "Whether a query fails because of its sort specification or search keys is the same for every map iteration order and every non-empty set of matching objects of the type.", "quantifier": "every history, query and iteration order", "why_tests_cant": "only the first object is consulted", "anchors": ["store/memory/memory.go:sortObjs", "page/page.go:Match", "store/memory/memory.go:Query"]}
{"id": "C55", "title": "Numeric sort with non-numbers fails", "statement": "Sorting at least two objects by one key with !int fails iff the value of some object is not a number; it never fails for fewer than two objects.", "quantifier": "every list of objects", "why_tests_cant": "depends on which pairs the sort algorithm compares", "anchors": ["store/memory/memory.go:sortObjs"]}
{"id": "C56", "title": "Store panics only on unconfigured types", "statement": "Store events, clean and query panic on a type that is not configured; on configured types events and clean never panic.", "quantifier": "every state and call", "why_tests_cant": "all states", "anchors": ["store/memory/memory.go:Query", "store/memory/memory.go:OnResourceAdded"]}
{"id": "C57", "title": "A malformed sort item turns sorting off", "statement": "A sort specification whose first item has more than two space-separated words (for example 'name  desc' with two spaces) is not an error: the objects are returned in map iteration order, so the same query can list the same objects in different orders.", "quantifier": "every list of objects and every such specification / exists: a store with two orders", "why_tests_cant": "depends on map iteration order", "anchors": ["store/memory/memory.go:sortObjs"]}
{"id": "C58", "title": "From the client's options to the listed page", "statement": "For a list request whose label selector was written by QueryListOptions for a caller's selector and a Paginate in range (at most 7518 bytes of JSON), a successful answer holds exactly the requested page of the cached objects that match the search that is run and the caller's selector, in sort order, and MakeupResPaginate on the client yields the number of all those objects.", "quantifier": "every selector, Paginate, cache history and page in range", "why_tests_cant": "the composition of client encoding, URL, server decoding, cache query, label filter and paging", "anchors": ["page/page.go:QueryListOptions", "api/proxy.go:Proxy", "page/page.go:MakeupResPaginate"]}
{"id": "C59", "title": "API paths reach the proxy with their type, namespace and name", "statement": "Every request path of the Kubernetes API for a type of the core or a named group, with or without namespace and with or without a name, is dispatched to the proxy (with the token or without one configured) with exactly that group, version, type, namespace and name; a write to a namespaced collection of a named group reaches the proxy without them.", "quantifier": "every type, namespace, name, method and header", "why_tests_cant": "overlapping route templates tried in order, over all paths", "anchors": ["server/server.go:registerRoutes", "api/proxy.go:getGVRFromReq"]}
{"id": "C61", "title": "The store never deadlocks and every call returns", "statement": "When any finite number of goroutines call added, modified, deleted, clean, Get and Query on configured types concurrently, then in every reachable state with an unfinished call some call can take its next step although the read locks are nested and a waiting writer keeps readers out; no execution is infinite, so under every scheduler every call returns.", "quantifier": "every number of calls, every content, every interleaving", "why_tests_cant": "lock orders and schedules", "anchors": ["store/memory/memory.go:syncResourceStore", "store/memory/memory.go:ForEach", "store/memory/memory.go:Query"]}
{"id": "C62", "title": "The token check during a reload", "statement": "A request on a protected route that reaches its handler while the configuration is being reloaded was let in by the token of a configuration that was in use between its arrival and then; one that is turned away was not let in by such a configuration, although the configuration is read twice.", "quantifier": "every interleaving of reloads and requests, every header", "why_tests_cant": "schedules between the two reads of the configuration", "anchors": ["server/server.go:registerRoutes", "cmd/cacheproxy/main.go:loadFromConfig", "common/config.go:InitConfig"]}
{"id": "C63", "title": "What a configuration means", "statement": "Loading succeeds exactly if the configuration file parses with the right types and the kubeconfig (the one given, else the one in the home directory, else the service account) gives a client for every context; then every configured type is watched in exactly the clusters that have a client, the default cluster is the kubeconfig's current context (never the one in the configuration file), and a type listed twice is indexed as listed last. A configuration written as JSON is read back unchanged.", "quantifier": "every configuration text, kubeconfig and environment", "why_tests_cant": "all texts and environments", "anchors": ["cmd/cacheproxy/main.go:loadFromConfig", "common/config.go:Config"]}
{"id": "C64", "title": "Which file changes are noticed", "statement": "After any history of file events, a write or removal of a file leads to one more reload attempt exactly if the file was watched from the start and was never removed without coming back within the waiting time; renames and permission changes lead to none; without a kubeconfig file nothing is watched.", "quantifier": "every history of events", "why_tests_cant": "all histories", "anchors": ["utils/fs_watcher.go:Start", "utils/fs_watcher.go:NewFixedFileWatcher", "cmd/cacheproxy/main.go:main"]}
{"id": "C60", "title": "What an HTTP client gets", "statement": "Every request gets exactly one reply. Its status fits what is written: one value with 200, one status object with its own code, or the chunks of a stream; the only statuses are 200, 301, 400, 401, 404, 500 and the failing status of the API server that was asked. A request without the token gets one fixed 401; /healthy is always answered with 200 and 1, /metrics with 200 and the metrics. A GET of an object at its API path is answered with the object of its last event or 404; a list at its API path with all cached objects of the default cluster and namespace, or, with the options of QueryListOptions, with the requested page, from which MakeupResPaginate computes the total. Any other authorised request is answered by one API server, with the body of its successful answer or with its failing status; its successful status is not kept (201 becomes 200).", "quantifier": "every request, cache history, configuration and behaviour of the API servers", "why_tests_cant": "the whole path from router to response writer for all inputs", "anchors": ["server/server.go:registerRoutes", "server/server.go:jsonResp", "api/proxy.go:Proxy", "api/proxy.go:errorProxy", "api/proxy.go:proxyPass", "api/proxy.go:proxyPassWatch"]}
{"id": "C65", "title": "Stop ends a watcher", "statement": "After Stop a goroutine of the watcher never passes its test again and opens at most one more stream, only if it had passed the test before; it can always end within three steps of its own without receiving anything; having ended it does nothing more, and when all have ended the cache is final. A goroutine ends only after Stop.", "quantifier": "every interleaving of goroutines, streams and Stop", "why_tests_cant": "schedules", "anchors": ["watcher/watcher.go:Stop", "watcher/watcher.go:watchResources", "watcher/watcher.go:Start"]}
{"id": "C66", "title": "The resource gauge while configurations are reloaded", "statement": "Until the first reload the gauge ckube_resources_total shows what the only store has counted. Whenever a watcher, old or new, deals with an event, the number of that cluster, type and namespace becomes the number of objects in that watcher's store and no other number changes; a number that is right for a store stays right until the gauge is reset, another watcher deals with an event of the same cluster and type, or the pair is cleaned. That the gauge agrees with the current cache after a reload is false: numbers set by the new watcher before the reset are lost, and an old watcher can set numbers of types no longer configured after it.", "quantifier": "every interleaving of watchers, requests and reloads", "why_tests_cant": "schedules around Reset, which runs after the new watcher has started", "anchors": ["utils/prommonitor/metrics.go:Resources", "cmd/cacheproxy/main.go:main", "store/memory/memory.go:OnResourceAdded"]}
{"id": "C67", "title": "ckubecli prints what the server reads back", "statement": "For every command line, ckubecli exits with 0 exactly if help is asked for and with 2 exactly if the flags are not well-formed (the numbers are the integer literals of Go that fit in 64 bits). Otherwise it prints a label selector, unchanged by the formatting verbs of Printf, or exits with 1, exactly if the encoded options are not a label value; from the printed selector the server reads exactly the page, size, sort and search last given and no label restriction, and with -c exactly the named clusters. That a cluster list is never dropped silently is false: with an empty name in it, or with names that are no label values, it is.", "quantifier": "every command line", "why_tests_cant": "all command lines, through flag parsing, encoding and the server's decoding", "anchors": ["cmd/ckubecli/main.go:main", "page/page.go:QueryListOptions", "page/page.go:Clusters"]}
{"id": "C68", "title": "the fake server is an object store with discovery, over HTTP", "statement": "Every server that NewFakeCKubeServer creates answers, over HTTP and whatever other servers of the process are asked meanwhile, every create, update, delete and get of a configured type in the syntax of the Kubernetes API (cluster named by fieldManager, resourceVersion or the delete options) with the status of an object store, starting empty, emptied by Clean; a get returns the object as created or last updated up to the two annotations, a list of the default cluster shows exactly its objects, each once. Every request is answered, begins a stream, or has its connection closed. GET /apis lists each configured group once, GET of a group and version lists every configured type in order with the kind of its list kind and eight verbs, GET /api names the version v1 and GET /version the release 1.23. A request with watch=true or watch=1 never changes anything, whatever its method. A patch and a write of a sub-resource are refused with 404 and change nothing; creating an object of a type that is not configured closes the connection. False: that discovery shows the configured versions, that a group lists only its own types, that the address a client is given is that of the server, and that a cleaned server serves the types it was created for when another server was created since.", "quantifier": "every sequence of HTTP requests, cleanings and creations of servers", "why_tests_cant": "all interleavings of requests to several servers, all paths, queries and bodies", "anchors": ["pkg/client/fake/fake_ckube.go:NewFakeCKubeServer", "pkg/client/fake/fake_ckube.go:registerFakeRoute", "pkg/client/fake/fake_ckube.go:proxy", "pkg/client/fake/fake_ckube.go:apis", "pkg/client/fake/fake_ckube.go:resources", "pkg/client/fake/fake_ckube.go:Clean", "pkg/client/fake/fake_ckube.go:watch"]}
{"id": "C69", "title": "From the bytes of a watch to the bytes of a reply", "statement": "For a configured custom type whose kind does not end in one of the letters of List, whatever events with documents of this kind the API server sends: when the goroutine has dealt with what it received, the cache holds for every name exactly the last document sent and not deleted, and a GET of the name is answered with JSON text that reads back as this document (kind, version, metadata and all members) with only ckube's two annotations added, or with 404; a list with one such text for every name, each once, and null without names. A type whose kind ends in one of these letters is never cached, whatever is configured; an object of a type that client-go knows is answered without kind and version.", "quantifier": "every stream of events, every execution of the watchers, every codec", "why_tests_cant": "decoding, registration, caching, annotating and printing for all documents and schedules", "anchors": ["watcher/watcher.go:watchResources", "watcher/watcher.go:ObjType", "store/memory/memory.go:buildResourceWithIndex", "api/proxy.go:Proxy", "server/server.go:jsonResp"]}
{"id": "C71", "title": "index expressions find the fields of documents", "statement": "An index configured as a path of member names ({.a.b.c}, with backslashes before the special characters of names) has, for every object, the text of the member the path leads to: a string as it is, an integer below a million by its digits, true and false, objects and arrays as JSON, and the empty text without such a member; {.a[*].b} gives the texts of b in the elements of the array that have it, in order, separated by spaces, and text around paths is kept, but [*] on a member that is there and is no array leaves nothing of the whole. For a cached custom object the field is that of the last document sent; a search key=value lists, of the objects of a cluster, exactly those whose last document has a field text that contains the value (or does not, with !). That a number is found by its digits is false from a million on.", "quantifier": "all paths, documents, events and searches", "why_tests_cant": "all expressions, documents and sequences of events, through parsing, caching and searching", "anchors": ["store/memory/memory.go:buildResourceWithIndex", "utils/utils.go:Obj2JSONMap", "store/memory/memory.go:Query", "watcher/watcher.go:ObjType"]}
{"id": "C72", "title": "numeric sort orders by number", "statement": "A list sorted by key!int (asc or desc) is in the order of the numbers that the index texts stand for: decimal texts with sign, dot and exponent are read as the nearest float64, a larger number never precedes a smaller one in an ascending list unless both have the same nearest float64, and integers of at most 53 bits are in exact order, whether indexed by their digits or in scientific form; the texts of infinities are at the ends of the list; so a list sorted by a number in a field of the documents is in the order of the field in the last documents sent. The list fails exactly when there are two objects to compare and some text is no number or is beyond the largest float64; one document without the field makes every list sorted by it fail. That integers above 2^53 are in order, and that a text NaN leaves the others in order, are both false.", "quantifier": "all texts, numbers, documents, events and pages", "why_tests_cant": "all decimal texts and all sets of objects, through rounding, comparing and sorting", "anchors": ["store/memory/memory.go:sortObjs", "store/memory/memory.go:Query", "store/memory/memory.go:buildResourceWithIndex"]}
{"id": "C70", "title": "The access log records the replies", "statement": "Every request on a canonical path, including refused ones and those whose handler panics, leaves exactly one line in the access log when it ends; a redirect leaves none. The line has the method, the path and the query as they came, the status of the reply, and the number of bytes of its body; so a line has a status from 400 on exactly when the reply has. The Authorization header has no effect on the log but through being refused. That the status is that of the reply is false for a watch that the client leaves before the first event (status 0), and that the length is what the client receives is false for HEAD.", "quantifier": "all requests, stores, configurations, replies of API servers and runs of any number of requests", "why_tests_cant": "the log is a side effect of the whole path of a request through the router, all handlers and the recovery of panics, and its fields are set by a wrapper whose calls must agree with those of net/http", "anchors": ["server/server.go:loggingMiddleware", "server/server.go:statusWriter", "server/server.go:registerRoutes", "api/proxy.go:errorProxy"]}
{"id": "C73", "title": "index expressions written as Go templates", "statement": "An index configured as a template of text, fields, constants, if/else, pipes and the functions default, quote and join has, for every object and every spelling of the template, the text that the template writes on the document the API server sent: fields are looked up by name, a missing member is no value, an if takes the branch of a value that is there, true and not empty, default, quote and join give what their names say, and text written before an error is kept. So {{.x.y}} gives the text of the member, {{ .x | default \"d\"}} gives d exactly when there is no value, the phase expression of the tests gives Deleting exactly for objects being deleted and else the phase, and {{join}} of namespace and name gives namespace/name. The cached index has this text after any sequence of events and a search key=value finds exactly the objects whose text contains or equals the value.", "quantifier": "all templates of this form, documents, events and searches", "why_tests_cant": "all templates and documents, through lexing, parsing, execution, caching and searching", "anchors": ["store/memory/memory.go:buildResourceWithIndex", "utils/utils.go:Obj2JSONMap", "store/memory/memory.go:Query", "watcher/watcher.go:ObjType"]}
{"id": "C74", "title": "What clients get from the running process across reloads", "statement": "A request that comes and is answered while no reload is under way is answered exactly as by a process that was started with the configuration loaded last and never reloaded, whose watcher received what the current watcher did; watchers of earlier loads have no effect on replies, and between reloads they open at most one more stream each. So a GET of a custom type gives the last document sent on the stream of the current watcher, or 404, and a write is answered as the API server does that the configuration loaded last gives for its cluster. During a reload the configuration, store and clients of a reply are each the old or the new one, in this order of age, and the reply is 401 only if one of the two configurations refuses the request. Every request is answered after at most four steps of its own. That an object found before and after a reload is found during it is false if the name of the default cluster changes, and that it is found after the reload of an unchanged configuration is false.", "quantifier": "every interleaving of reloads, watchers and requests", "why_tests_cant": "all schedules of requests against reloads and against the streams of several watchers, through the whole path of a request", "anchors": ["cmd/cacheproxy/main.go:main", "server/server.go:ResetStore", "server/server.go:registerRoutes", "watcher/watcher.go:Stop", "api/proxy.go:Proxy"]}
{"id": "C75", "title": "the fake server's watch streams while requests run", "statement": "Whatever requests and watches of a fake server run at the same time: a stream has one line for each event that the watch received and that is of its type, namespace and clusters, in the order of receiving; no event is received twice or before its change is in the store, and no request sends on a closed channel. From its registration to its time-out, a watch whose address no other open watch has receives the event of every answered request, unless it was not waiting for one at that moment; if the requests come one after the other and the watch waits whenever one begins, its stream is exactly the wanted changes since its registration, in the order of the changes. If no two open watches ever share an address, every request can be answered by steps of its own. False: that no event is lost when requests come one after the other; that concurrent changes are seen in the order the store had them; and, since a watch outlives its client by up to ten minutes, when a later client has the same address: that an open watch goes on receiving, and that the server answers at all.", "quantifier": "every interleaving of requests, watches and time-outs", "why_tests_cant": "all schedules of unbuffered channels, non-blocking sends and a read-write lock", "anchors": ["pkg/client/fake/fake_ckube.go:watch", "pkg/client/fake/fake_ckube.go:proxy"]}
{"id": "C76", "title": "reading a list page by page while the cache changes", "statement": "A client reads a list over HTTP page by page, with QueryListOptions, the default order and the same page size, namespace, search and label selector, while watchers change the cache between the pages, and reads on until the pages hold the total that MakeupResPaginate gives. An object that is in the list at every request is on some page, with the content cached then, provided that no object before it (by cluster, namespace, name) leaves the list between two pages. It is at most once on the pages provided that no object before it comes into the list. So if the events between the pages are all about objects after it or other resources, it is on the pages exactly once. Without the provisos both are false: a deletion before it makes a client miss an object that was there all the time, and an addition before it shows it twice.", "quantifier": "all lists, page sizes, searches and selectors; all changes of the cache between the pages; any number of pages", "why_tests_cant": "the changes between the pages and the sizes of the list are unbounded, and a page depends on all objects before it", "anchors": ["api/proxy.go:Proxy", "store/memory/memory.go:Query", "page/page.go:QueryListOptions", "page/page.go:MakeupResPaginate"]}
{"id": "C77", "title": "how replies follow the clusters over time", "statement": "Seen against the API servers behind the watches, each of which sends all objects there are when a watch is opened and then every change, and may close a stream at any time: once all first objects of a stream have arrived, every GET is answered for the cluster exactly as it was after some number of its changes, and for later GETs this number never goes down, not across new streams either; a list has exactly the objects of the cluster after this number of changes, each once. While the first objects arrive, those that have not arrived are missing (404) and the others are as they were when the stream was opened. When the cluster comes to rest and connections succeed and stay open, then after finitely many steps of the goroutine every GET and every list is answered for the cluster as it is, for good, provided the cluster has an object of the type or the stream is the one the cache was filled from. False: that an object which is unchanged in the cluster is found by every GET after the first that found it; that a change made in the cluster is seen by the next GET; and, without the proviso, that replies ever become right.", "quantifier": "all clusters and changes, all interleavings of goroutines, streams, failures and requests; infinite executions with a fair scheduler", "why_tests_cant": "eventual consistency is a statement about infinite executions; the order of a stream's first objects and the moments of closing are unbounded", "anchors": ["watcher/watcher.go:watchResources", "api/proxy.go:Proxy", "store/memory/memory.go:Get", "store/memory/memory.go:Clean"]}
{"id": "C78", "title": "the whole process follows files and clusters in the long run", "statement": "Seen with the files, the API servers, the reloading goroutine, the watchers of every load and all requests running at once: once no more changes of the files are noticed and the reloading goroutine is not left alone for ever, there is a moment from which on configuration, watcher, store and clients are all those of the last load that succeeded, and no reload is under way. A GET that arrives after that moment and whose watcher has received the first objects is answered for the cluster as it was after some number of its changes. When moreover the default cluster of that load comes to rest, connections succeed and stay open and the goroutine that watches the type is scheduled fairly, then after finitely many steps every GET and every list that comes is answered for that cluster as it is, for good.", "quantifier": "all configurations, files, clusters and changes; all infinite interleavings of reloads, watchers of all loads and requests, with a fair scheduler", "why_tests_cant": "a statement about infinite executions of all goroutines together; no test sees every schedule or a moment from which on something holds for ever", "anchors": ["cmd/cacheproxy/main.go:main", "server/server.go:ResetStore", "watcher/watcher.go:watchResources", "watcher/watcher.go:Stop", "api/proxy.go:Proxy"]}
{"id": "C79", "title": "replies are those of a cache filled from the clusters", "statement": "When the watches have dealt with the first objects of their streams, every request of any kind (a GET, a list with any page, search, label selector and sort order, a table, the services page) has exactly the replies that it would have if the cache had been filled, in any order, with the objects that the clusters have after the changes dealt with, and with nothing else; what came before, reconnections and objects that have gone included, leaves no trace. For the reads of one type it is enough that the watches of this type have done so. So when the files are left alone and the clusters come to rest, the whole process answers every request, from some moment on and for good, as a process would whose cache was filled with just the objects that are there.", "quantifier": "all requests, configurations, clusters and changes; all interleavings; infinite executions with a fair scheduler", "why_tests_cant": "a statement about all requests and all histories of the cache at once: the replies may depend on nothing but the objects that are there", "anchors": ["watcher/watcher.go:watchResources", "store/memory/memory.go:Query", "api/proxy.go:Proxy", "cmd/cacheproxy/main.go:main", "server/server.go:registerRoutes"]}
{"id": "C80", "title": "JSON texts mean what RFC 8259 says", "statement": "A text is accepted where JSON is read exactly if the grammar of RFC 8259 has it, with at most 10000 arrays and objects inside each other, and it has the value that the grammar gives it, and only one: white space, the order and the escapes of a text make no difference, escapes and pairs of surrogates stand for their code point, and half a pair or a byte that is no UTF-8 for U+FFFD. So a query that a client writes itself in any layout, its members in any order and in capitals or small letters, asks for exactly the page, size, sort and search that its members say, the last one of a name deciding; one that is no JSON text is ignored without an error and everything is listed. A DELETE whose body is any JSON text with a cluster's tag in its last dryRun goes to that cluster, with a JSON text that has the other strings of dryRun and not the tag. A configuration is read the same in every layout and is not loaded if it is no JSON text, and a custom object is the same object in every layout of its document. What is written is JSON and means what was to be written.", "quantifier": "all texts and all values", "why_tests_cant": "the texts of one value are infinitely many; accepting exactly the grammar is a statement about every text", "anchors": ["api/proxy.go:parsePaginateAndLabelsAndClean", "watcher/watcher.go:UnmarshalJSON", "cmd/cacheproxy/main.go:loadFromConfig"]}
{"id": "C81", "title": "label selector texts of any layout mean what the grammar says", "statement": "A label selector in a list or in an advanced search may be written in any layout of the Kubernetes grammar: with spaces, tabs and line ends between its parts or without, '=' or '==', keys with or without a DNS prefix, 'in' and 'notin' also as keys and values, values left out. It is accepted and holds of exactly the labels that meet every requirement written, provided no key has two '=' requirements and no list of values ends in two empty ones; a list with it shows exactly the objects of the default cluster whose labels meet them all. A text that the grammar does not have (a key or value that is too long or has a bad character, a missing key, a missing parenthesis, a comparison with < or >) is not accepted, and the cache does not answer the request. What is accepted means what the grammar says, and a text has one meaning only.", "quantifier": "all texts without a NUL byte, all requirements, all labels, all cache contents", "why_tests_cant": "a selector can be laid out in infinitely many ways; accepting exactly the grammar and keeping the meaning is a statement about every text", "anchors": ["kube/label.go:ParseToLabelSelector", "api/proxy.go:parsePaginateAndLabelsAndClean", "page/page.go:Match"]}
{"id": "C82", "title": "what the metrics page says about reloads", "statement": "Whatever reloads, watchers and requests run at the same time: every reload that began is counted exactly once in ckube_reload_config_total when it has ended, as success or failed, and the counters never go down; every reload that begins does end and is counted, unless its goroutine is left alone for ever. It is counted as failed exactly if the files, as they were when it began, cannot be loaded, and then everything in use stays as it was; as success exactly if they can, and then configuration, clients, store and watcher are all those of this load. While no reload is under way, the number of successes is the number of the load in use, the first one being number 0. So a request that arrives after the page has shown n successes works in every respect with the n-th load or a later one; and once there is one more success than when the files were changed (two more if a reload was under way then), every request that arrives works only with files as they were after the change. The gauge up is always 1.", "quantifier": "every interleaving of any number of reloads, watchers and requests", "why_tests_cant": "waiting for a counter is a statement about all schedules of the reloading goroutine against requests; a test sees one", "anchors": ["utils/prommonitor/metrics.go:ConfigReload", "utils/prommonitor/metrics.go:Up", "cmd/cacheproxy/main.go:main", "cmd/cacheproxy/main.go:loadFromConfig", "server/server.go:ResetStore"]}
{"id": "C83", "title": "which requests the gateway of the image sends to ckube", "statement": "In the image clients reach ckube through nginx. A GET of a type, of a type in a namespace or of one object, at its path in the Kubernetes API and without a watch, is sent to ckube with the token of the service account, and ckube's proxy gets exactly this type, namespace and name, whatever Authorization header the client sends; so the reply to the GET of an object of a cached type is the object as it was cached last, or 404, and the reply to the plain list of a type has every object of the default cluster in the cache once. Nothing else reaches ckube but paths that begin like its own pages /custom, /metrics and /healthy, which are sent as they came: writes of any method, watches (the first argument called watch, in letters of either case, with 1 or true in its value) and all other paths go to the API server, with the token of the service account. Each request is sent to exactly one place.", "quantifier": "all requests: methods, paths, arguments and headers; all cache contents", "why_tests_cant": "the expression of the location is matched against all paths and has to agree with the routes of another program", "anchors": ["nginx.conf:location", "nginx.conf:BACKEND", "entrypoint.sh:token", "server/server.go:registerRoutes"]}
