*.vo
*.vok
*.vos
*.glob
*.aux
.*.aux
.lia.cache
*.cache
Makefile
Makefile.conf
.Makefile.d
__pycache__/
