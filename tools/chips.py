"""Compare the chip descriptions in Chips.v with the yaml files, and the numbers of elf.py that
are written out in the model with the text of elf.py.  Usage: chips.py [REPO]"""
import os
import re
import sys

HERE = os.path.dirname(os.path.abspath(__file__))
THEORIES = os.path.join(HERE, '..', 'rocq', 'theories')
REPO = sys.argv[1] if len(sys.argv) > 1 else '/repo'


def scalar(text):
    """A plain integer of yaml, or a string."""
    return int(text, 0) if re.fullmatch(r'0x[0-9a-fA-F]+|0|[1-9][0-9]*', text) else text


def from_yaml(path):
    types = []
    for line in open(path):
        line = line.split('#')[0].rstrip()
        if not line:
            continue
        key, _, value = line.strip().partition(':')
        if line[0] != ' ':
            assert not value, line
            types.append((key, {}))
        else:
            assert key in ('primary_address', 'length', 'secondary_address', 'name'), line
            assert key not in types[-1][1], line
            value = value.strip()
            types[-1][1][key] = value if key == 'name' else scalar(value)
    return types


def from_model(text):
    def value(t):
        kind, rest = t.strip('()').split(' ', 1)
        return int(rest, 0) if kind == 'YInt' else rest.strip('"')
    types = []
    for m in re.finditer(r'ye "([^"]*)" (\([^)]*\)) (\([^)]*\)) (None|\(Some \([^)]*\)\)) (None|\(Some "[^"]*"%string\))', text):
        info = {'primary_address': value(m[2]), 'length': value(m[3])}
        if m[4] != 'None':
            info['secondary_address'] = value(m[4][6:-1])
        if m[5] != 'None':
            info['name'] = m[5].split('"')[1]
        types.append((m[1], info))
    return types


def main():
    bad = 0
    chips = open(os.path.join(THEORIES, 'Chips.v')).read()
    model = {m[1]: from_model(m[2]) for m in re.finditer(r'Definition yaml_(\w+) : list yentry :=(.*?)\]\.', chips, re.S)}
    listed = re.findall(r'\(list_ascii_of_string "(\w+)", yaml_(\w+)\)', chips)
    directory = os.path.join(REPO, 'esp_idf_size', 'chip_info')
    files = {f[:-5]: from_yaml(os.path.join(directory, f)) for f in os.listdir(directory) if f.endswith('.yaml')}
    if sorted(listed) != sorted((f, f) for f in files) or set(model) != set(files):
        print('the files differ')
        bad += 1
    for name in sorted(files):
        if files[name] != model.get(name):
            print(name, files[name], model.get(name), sep='\n  ')
            bad += 1
    constants = {}
    for line in open(os.path.join(REPO, 'esp_idf_size', 'elf.py')):
        m = re.match(r'([A-Z]\w+) = (0x[0-9a-fA-F]+|\d+|1 << \d+)\s*(#.*)?$', line)
        if m:
            low, _, shift = m[2].partition(' << ')
            constants[m[1]] = int(low, 0) << int(shift or '0')
    count = 0
    for f in sorted(os.listdir(THEORIES)):
        if f.endswith('.v'):
            for m in re.finditer(r'Definition ((?:DW|SH|ST|EI|ET|EM|PT)\w*_\w+) : Z := (\d+|0x[0-9a-f]+)\.', open(os.path.join(THEORIES, f)).read()):
                count += 1
                if constants.get(m[1]) != int(m[2], 0):
                    print(f, m[1], m[2], constants.get(m[1]))
                    bad += 1
    print(len(files), 'chips,', count, 'constants,', bad, 'differences')
    sys.exit(bad != 0)


main()
