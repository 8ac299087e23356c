#!/usr/bin/env python3
"""Compare the table [options] of rocq/theories/CommandLine.v with the declarations in main.py.

usage: options.py /repo/esp_idf_size/main.py

Reads main.py as text (with the ast module, it is not executed) and prints the differences."""
import ast, os, re, sys
ROOT = os.path.dirname(os.path.dirname(os.path.abspath(__file__)))

def declared(path):
    out = []
    main = next(f for f in ast.parse(open(path).read()).body if isinstance(f, ast.FunctionDef) and f.name == 'main')
    for d in main.decorator_list:
        if d.func.attr != 'option': continue
        kw = {k.arg: k.value for k in d.keywords}
        const = lambda k, default: kw[k].value if k in kw and isinstance(kw[k], ast.Constant) else default
        words = [a.value for a in d.args]
        names = [w for w in words if w.startswith('-')]
        dest = next((w for w in words if not w.startswith('-')), None)
        if dest is None:  # the first long name
            dest = next(n for n in names if n.startswith('--'))[2:].split('/')[0].replace('-', '_')
        if '/' in names[0]:
            on, off = names[0].split('/')
            out += [((on,), dest, 'true'), ((off,), dest, 'false')]
        elif const('is_flag', False):
            out.append((tuple(names), dest, 'true' if const('flag_value', True) else 'false'))
        else:
            out.append((tuple(names), dest, 'append' if const('multiple', False) else 'store'))
    return out + [(('-h', '--help'), 'help', 'true')]

def modelled():
    text = open(f'{ROOT}/rocq/theories/CommandLine.v').read()
    text = text[text.index('Definition options'):]
    text = text[:text.index('].\n')]
    out = []
    for l in text.split('\n')[1:]:
        strings = re.findall(r'"([^"]*)"', l)
        kind = 'true' if l.strip().startswith('flag') else 'store' if l.strip().startswith('valued') else \
            'append' if 'AAppend' in l else re.search(r'AConst (\w+)', l).group(1)
        out.append((tuple(strings[:-1]), strings[-1], kind))
    return out

if __name__ == '__main__':
    a, b = declared(sys.argv[1]), modelled()
    for x in a:
        if x not in b: print('not in the model:', x)
    for x in b:
        if x not in a: print('not in main.py:', x)
    print(len(a), 'declared,', len(b), 'modelled,', 'same' if a == b else 'different')
