#!/usr/bin/env python3
"""Prints the tables of SpecOld.v from the published interfaces of earlier generations (solana/ts/idl/1_0_0/json and 2_0_0/json)."""
import json, pathlib, textwrap
root = pathlib.Path('/repo/solana/ts/idl')
progs = [('AManager', 'example_native_token_transfers'), ('AQuoter', 'ntt_quoter'), ('AGovernance', 'wormhole_governance'), ('AHook', 'dummy_transfer_hook')]
gens = [('Gen1', '1_0_0'), ('Gen2', '2_0_0')]
prim = {'u8': 'IU 1', 'u16': 'IU 2', 'u32': 'IU 4', 'u64': 'IU 8', 'u128': 'IU 16', 'i64': 'II64', 'bool': 'IBool', 'publicKey': 'IKey', 'string': 'IString'}
def ty(t, p=False):
    if isinstance(t, str): s = prim[t]
    elif 'defined' in t: s = 'INamed "%s"' % t['defined']
    elif 'option' in t: s = 'IOpt ' + ty(t['option'], True)
    elif 'array' in t:
        assert t['array'][0] == 'u8'; s = 'IRaw %d' % t['array'][1]
    else: raise Exception(t)
    return '(' + s + ')' if p and ' ' in s else s
def fields(fs): return '[' + '; '.join('("%s", %s)' % (f['name'], ty(f['type'])) for f in fs) + ']'
def definition(t):
    if t['kind'] == 'struct': return 'IStruct ' + fields(t['fields'])
    return 'IEnum [' + '; '.join('("%s", [%s])' % (v['name'], '; '.join(ty(f) for f in v.get('fields', []))) for v in t['variants']) + ']'
def metas(l, p=''):
    o = []
    for a in l:
        if 'accounts' in a: o += metas(a['accounts'], p + a['name'] + '.')
        else: o.append(('S' if a['isSigner'] else '') + ('W' if a['isMut'] else '') + ' "' + p + a['name'] + '"')
    return ['R' + x if x.startswith(' ') else x for x in o]
def table(name, typ, f):
    print(f'Definition {name} (n : generation) (p : program) : {typ} :=\n  match n, p with')
    for g, d in gens:
        for c, j in progs:
            rows = f(json.load(open(root / d / 'json' / (j + '.json'))))
            print(f'  | {g}, {c} =>\n    [' + ';\n     '.join(rows) + ']')
    print('  | _, ATransceiver => []\n  end.')
table('old_types', 'list (string * idef)', lambda d: ['("%s", %s)' % (t['name'], definition(t['type'])) for t in d.get('types', [])])
table('old_accounts', 'list (string * list (string * ity))', lambda d: ['("%s", %s)' % (t['name'], fields(t['type']['fields'])) for t in d.get('accounts', [])])
table('old_arguments', 'list (string * list (string * ity))', lambda d: ['("%s", %s)' % (i['name'], fields(i['args'])) for i in d['instructions']])
table('old_lists', 'list (string * list field)', lambda d: ['("%s", [%s])' % (i['name'], '; '.join(metas(i['accounts']))) for i in d['instructions']])
