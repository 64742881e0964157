*.vo
*.vok
*.vos
*.glob
*.aux
.*.aux
*.cache
.Makefile.d
Makefile
Makefile.conf
*.pyc
__pycache__/
