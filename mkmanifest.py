#!/usr/bin/env python3
"""Writes MANIFEST.json from the theorem names in the Props*.v files.  A theorem
C07_xxx belongs to property C07.  NOTES gives the status and the note."""
import json, re, glob
STATUS = {}
NOTES = {
 'C01': 'For every data layer, JWT library and set of handlers.',
 'C04': 'Proved for secrets; the assertion path violates it (refuted theorem): CanUseGrantType is never asked there.',
 'C13': 'The property is violated by the code; refuted for every session, under both methods.',
 'C19': 'The property is violated; the crash is characterised exactly.',
 'C52': 'Whitelist of log sources and independence of the secret proved; user passwords are logged (refuted theorem).',
 'C23': 'Value, coverage and presence of the hashes proved; the encoding is padded standard base64 instead of base64url (refuted for every RS256/RS512 client).',
 'C34': 'Proved when prompt is exactly the word none and the policy is a declared one; refuted for "none none" and for undeclared policy values.',
 'C35': 'Proved: nobody is asked for consent or issued anything before login; refuted for the id_token_hint none-prompt policy, which never asks whether there is a login session.',
 'C37': 'Proved outside prompt=none; refuted for prompt=none, where max_age is never looked at, and for max_age=0.',
 'C42': 'Proved for hybrid; refuted for implicit, for every answer: the parameter is called rexpires_in.',
 'C56': 'Exact panic conditions of the authorization endpoint; refuted that a data-layer error never crashes it.',
 'C44': 'Proved for every URI that has no fragment and no trailing question mark; refuted for every URI ending in "?" and for every URI with a fragment.',
 'C45': 'Proved at the level of the two completing handlers, for every value; refuted for the action attribute (a redirect URI with a double quote).',
 'C46': 'Round trip exactly when every string is UTF-8; what comes back otherwise is characterised.',
 'C49': 'Names, statuses, JSON, query and WWW-Authenticate renderings.',
 'C50': 'The pair is read back iff both strings consist of unreserved bytes; refuted otherwise.',
 'C51': 'The key loader and the JWK renderer are oracles.',
 'C55': 'Filtering proved; labels refuted (error and fatal print DEBUG).',
 'C58': 'The documents are read with the JSON reader of JsonParse.v.',
 'C09': 'For every data layer with the laws of code_store; the bundled store is an instance.',
 'C10': 'Proved for every data layer whose DisableSession refuses a disabled session; refuted for the bundled store.',
 'C11': 'Refuted (token first, then disabling); the converse order proved for every crash point of every entry point.',
 'C53': 'Any interleaving of all entry points, every data layer with the laws of linked_store; the bundled store is an instance.',
 'C64': 'Refuted for requests that were never shown.',
 'C65': 'Soundness of every error and completeness for requests in order.',
 'C66': 'Refuted: a failed login screen or a failed Continue leaves everybody without an answer.',
 'C67': 'Over the PEM and x509 libraries as oracles.',
 'C68': 'For every jwk library that reads what it writes; refuted that the loader never crashes.',
 'C69': 'Refuted for the request path, which the authorization endpoint and the resource protector print as it is.',
 'C71': 'Any interleaving of all entry points, every data layer with the laws of linked_store and token_store; the bundled store is an instance.',
 'C72': 'As C71, with the law scope_store.',
 'C73': 'Refuted over the bundled store; proved as long as user and client agree on one scope only.',
 'C74': 'Any interleaving of all entry points, every data layer with the laws of linked_store and separate_store; the bundled store is an instance.',
 'C75': 'Proved for clients, codes and live refresh tokens; refuted for expired refresh tokens (C75_expired_refresh_tokens_refuted). Timing and logs are not part of the answer.',
 'C76': 'Over every data layer with the laws of linked_store, separate_store and answering_store; the bundled store is an instance. Expiry is as the protector computes it, in 64 bits. What HandleRequest gives out without asking is covered (PropsSilent.v).',
 'C77': 'Over every data layer with the laws of linked_store, separate_store and answering_store; the bundled store is an instance. Assumes that signing works for the client if the scope has openid. What HandleRequest gives out without asking is covered (PropsSilent.v).',
 'C78': 'Bundled grant handlers only (a custom handler can do anything).',
 'C79': 'Over every data layer with the laws of linked_store and steady_store (stored sessions keep nonce and time, subjects and the issuer do not change); the bundled store is an instance.',
 'C80': 'Over any data layer with the promises of linked_store, separate_store, answering_store and refreshing_store, with instance for the bundled store. The bundled store may find any token with the same refresh token; the expiry asked about is that of the one found.',
 'C81': 'Over any data layer with the promises of revoking_store; instance for the bundled store, where withdrawing is deleting (it has no other way). C81_requests_under_way_refuted records that a request that was under way may still get its token.',
 'C82': 'net/http and net/url are modelled as of Go 1.17+; multipart bodies are not modelled.',
 'C83': 'RSA, ECDSA and EdDSA are oracles; HMAC, SHA-2, base64 and JSON are computed in the model.',
 'C84': 'C84_rsa_clients_refuted: universal over requests and histories.',
 'C85': 'C85_expiry_refuted: an assertion with exp 0 is accepted at the end of time.',
 'C86': "encoding/json is library code that goidc relies on: the readers are its model; goidc's part is what is handed to them. Go's limit of 10000 nested arrays and objects is part of the specification (C86_nesting_limit).",
 'C87': 'When several faults coincide any of them may be named. RFC 7521 demands invalid_client for every failed client assertion; an expired one is answered with invalid_grant (C87_client_assertion_errors_refuted).',
 'C88': 'Hypotheses: nobody else acts for the client meanwhile, the code is not generated twice, the redirect URI has no query, fragment or double quote, the client can sign if an ID token is due. For a custom redirect URI with a query see C44.',
 'C89': "That Go's crypto packages implement the standard is trusted; what is proved is that the model's functions do. A missing padding of base64 and the encodings are in C12/C23.",
 'C90': "C90_errors_are_reported_refuted is a finding about the API.",
 'C91': 'The maps of the store are updated in place in Go: a client fetched before AllowToUseGrantType sees the addition, here it is fetched again. C91_token_strings_return_refuted is a finding about the bundled store.',
 'C92': "The numbers in descriptions (greater than / less than) wrap around like Go's int (itoa (add64 max 1)).",
 'C93': 'Levels, kinds and the method attribute of log lines are modelled; message texts are not.',
 'C94': 'url.Parse and http.Redirect are modelled as of Go 1.19. Hosts of the grammar have escapes of non-ASCII bytes only and no zones (url.Parse refuses the former).',
 'C95': 'Bearer and Basic challenges read back exactly; the unescaped realm of the token endpoint, control characters and the double quotes in the scope description are refuted',
 'C96': "C96_approved: CompleteRequest's answer; C96_not_asked: HandleRequest's; C96_renewed, C96_renewed_for_ever: renewals (the latter coinductive, under renewing_store, which the bundled store meets: bundled_renewing). The example plays approval, redemption and two renewals on the bundled store with a thief at work.",
 'C59': 'Truth of the records proved; refuted that a refused assertion leaves no record.',
 'C60': 'The property is violated in both places.',
 'C61': 'Proved for the four grants of RFC 6749; refuted for RFC 7523.',
 'C62': 'The property is violated; absence of influence proved for every request.',
 'C63': 'Proved; refuted for repeated parameters.',
 'C54': 'The property is violated; see also C07_code_exchange_complete.',
}
try:
    from manifest_notes import NOTES as MORE, STATUS as MORES
    NOTES.update(MORE); STATUS.update(MORES)
except ImportError:
    pass
thms = {}
for f in sorted(glob.glob('/verif/rocq/theories/Props*.v')):
    for m in re.finditer(r'^Theorem\s+((C\d\d)_\w+)', open(f).read(), re.M):
        thms.setdefault(m.group(2), []).append(m.group(1))
claims = []
for line in open('/verif/properties.jsonl'):
    p = json.loads(line)['id']
    t = thms.get(p, [])
    st = STATUS.get(p, 'proved' if t else None)
    if st is None:
        continue
    if any(x.endswith('_partial') for x in t): st = 'partial'
    claims.append({'property': p, 'status': st, 'theorems': t, 'note': NOTES.get(p, '')})
json.dump({'claims': claims}, open('/verif/MANIFEST.json', 'w'), indent=1)
print(len(claims), 'claims', sum(len(c['theorems']) for c in claims), 'theorems')
