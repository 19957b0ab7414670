.lia.cache
.nia.cache
.nra.cache
*.vo
*.vok
*.vos
*.glob
.*.aux
Makefile
Makefile.conf
.Makefile.d
__pycache__/
