#!/usr/bin/env python3
"""Prints the type tables of SpecTypes.v from the published interfaces (solana/ts/idl/3_0_0/json)."""
import json, pathlib
root = pathlib.Path('/repo/solana/ts/idl/3_0_0/json')
progs = [('AManager', 'example_native_token_transfers'), ('ATransceiver', 'ntt_transceiver'), ('AQuoter', 'ntt_quoter'), ('AGovernance', 'wormhole_governance'), ('AHook', 'dummy_transfer_hook')]
prim = {'u8': 'IU 1', 'u16': 'IU 2', 'u32': 'IU 4', 'u64': 'IU 8', 'u128': 'IU 16', 'i64': 'II64', 'bool': 'IBool', 'publicKey': 'IKey', 'string': 'IString'}
def ty(t, p=False):
    if isinstance(t, str): s = prim[t]
    elif 'defined' in t: s = 'INamed "%s"' % t['defined']
    elif 'option' in t: s = 'IOpt ' + ty(t['option'], True)
    elif 'array' in t:
        assert t['array'][0] == 'u8'; s = 'IRaw %d' % t['array'][1]
    else: raise Exception(t)
    return '(' + s + ')' if p and ' ' in s else s
def fields(fs): return '[' + '; '.join('("%s", %s)' % (f['name'], ty(f['type'])) for f in fs) + ']'
def definition(t):
    if t['kind'] == 'struct': return 'IStruct ' + fields(t['fields'])
    return 'IEnum [' + '; '.join('("%s", [%s])' % (v['name'], '; '.join(ty(f) for f in v.get('fields', []))) for v in t['variants']) + ']'
def table(name, typ, f):
    print(f'Definition {name} (p : program) : {typ} :=\n  match p with')
    for c, j in progs:
        rows = f(json.load(open(root / (j + '.json'))))
        print(f'  | {c} =>\n    [' + ';\n     '.join(rows) + ']')
    print('  end.')
table('types', 'list (string * idef)', lambda d: ['("%s", %s)' % (t['name'], definition(t['type'])) for t in d.get('types', [])])
table('accounts', 'list (string * list (string * ity))', lambda d: ['("%s", %s)' % (t['name'], fields(t['type']['fields'])) for t in d.get('accounts', [])])
table('arguments', 'list (string * list (string * ity))', lambda d: ['("%s", %s)' % (i['name'], fields(i['args'])) for i in d['instructions']])
table('returns', 'list (string * ity)', lambda d: ['("%s", %s)' % (i['name'], ty(i['returns'])) for i in d['instructions'] if i.get('returns')])
